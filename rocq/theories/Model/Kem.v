(** Model of kem.c (reference) and Variants/uSaber-90s/ref/kem.c, which is the same text
    up to the names of the hash functions. *)
From Coq Require Import ZArith List.
From Verif Require Import Lib.Arr Lib.CInt Lib.CMon Model.Params Model.Verify Model.Indcpa.
Import ListNotations.
Local Open Scope Z_scope.
Local Open Scope M_scope.

Section Kem.
  (** [hash_h junk out in inlen] (sha3_256 | sha256), [hash_g] (sha3_512 | sha512), [prf]. *)
  Variable hash_h hash_g : mem -> list Z -> list Z -> Z -> M (list Z).
  Variable prf : mem -> list Z -> Z -> list Z -> Z -> M (list Z).
  Context {S : Type}.
  Variable rb : S -> Z -> list Z * S.

  (** kem.c:12-25.  Returns [pk], [sk], the state of the random source, and the return value. *)
  Definition crypto_kem_keypair (junk : mem) (c : cfg) (st : S) (pk sk : list Z) : M (list Z * list Z * S * Z) :=
    '(pk, sk, st) <- indcpa_kem_keypair prf rb (sub junk 0) c st pk sk ;;
    sk <- for_ 0 (SABER_INDCPA_PUBLICKEYBYTES c) (fun i sk =>
      CMon.st U8 sk (i + SABER_INDCPA_SECRETKEYBYTES c) (Idx U8 pk i)) sk ;;
    sk <- at_ sk (SABER_SECRETKEYBYTES c - 64) (fun p => hash_h (sub junk 1) p pk (SABER_INDCPA_PUBLICKEYBYTES c)) ;;
    p <- ptr sk (SABER_SECRETKEYBYTES c - SABER_KEYBYTES) ;;
    '(p, st) <- randombytes rb st p SABER_KEYBYTES ;;
    sk <- at_ sk (SABER_SECRETKEYBYTES c - SABER_KEYBYTES) (fun _ => ret p) ;;
    ret (pk, sk, st, 0).

  (** kem.c:27-49.  Returns [c], [k], the state of the random source, and the return value. *)
  Definition crypto_kem_enc (junk : mem) (cf : cfg) (st : S) (c k pk : list Z) : M (list Z * list Z * S * Z) :=
    let kr := uninit junk 0 64 in
    let buf := uninit8 junk 1 64 in
    '(buf, st) <- randombytes rb st buf 32 ;;
    buf <- hash_h (sub junk 2) buf buf 32 ;;
    buf <- at_ buf 32 (fun p => hash_h (sub junk 3) p pk (SABER_INDCPA_PUBLICKEYBYTES cf)) ;;
    kr <- hash_g (sub junk 4) kr buf 64 ;;
    r <- ptr kr 32 ;;
    c <- indcpa_kem_enc prf (sub junk 5) cf buf r pk c ;;
    kr <- at_ kr 32 (fun p => hash_h (sub junk 6) p c (SABER_BYTES_CCA_DEC cf)) ;;
    k <- hash_h (sub junk 7) k kr 64 ;;
    ret (c, k, st, 0).

  (** kem.c:51-78.  Returns [k] and the return value. *)
  Definition crypto_kem_dec (junk : mem) (cf : cfg) (k c sk : list Z) : M (list Z * Z) :=
    let cmp := uninit junk 0 (SABER_BYTES_CCA_DEC cf) in
    let buf := uninit junk 1 64 in
    let kr := uninit junk 2 64 in
    pk <- ptr sk (SABER_INDCPA_SECRETKEYBYTES cf) ;;
    buf <- indcpa_kem_dec (sub junk 3) cf sk c buf ;;
    buf <- for_ 0 32 (fun i buf =>
      CMon.st U8 buf (32 + i) (Idx U8 sk (SABER_SECRETKEYBYTES cf - 64 + i))) buf ;;
    kr <- hash_g (sub junk 4) kr buf 64 ;;
    r <- ptr kr 32 ;;
    cmp <- indcpa_kem_enc prf (sub junk 5) cf buf r pk cmp ;;
    fail <- verify c cmp (SABER_BYTES_CCA_DEC cf) ;;
    kr <- at_ kr 32 (fun p => hash_h (sub junk 6) p c (SABER_BYTES_CCA_DEC cf)) ;;
    z <- ptr sk (SABER_SECRETKEYBYTES cf - SABER_KEYBYTES) ;;
    b <- asg U8 fail ;;
    kr <- cmov kr z SABER_KEYBYTES b ;;
    k <- hash_h (sub junk 7) k kr 64 ;;
    ret (k, 0).
End Kem.
