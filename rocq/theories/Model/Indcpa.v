(** Model of SABER_indcpa.c (reference) and Variants/uSaber-90s/ref/SABER_indcpa.c, which
    is the same text up to the names of the hash functions. *)
From Coq Require Import ZArith List Bool.
From Verif Require Import Lib.Arr Lib.CInt Lib.CMon Model.Params Model.Pack Model.Cbd Model.PolyMul Model.Poly.
Import ListNotations.
Local Open Scope Z_scope.
Local Open Scope M_scope.

(** [uint16_t x[n][256];] and [uint16_t x[n][n][256];] *)
Definition uninit2 (junk : mem) (tag n : Z) : list (list Z) := ztab n (fun i => uninit (sub junk tag) i 256).
Definition uninit3 (junk : mem) (tag n : Z) : list (list (list Z)) := ztab n (fun i => uninit2 (sub junk tag) i n).
(** [uint16_t x[n][256] = {0};] *)
Definition zeros2 (n : Z) : list (list Z) := ztab n (fun _ => zeros 256).

Section Indcpa.
  Variable prf : mem -> list Z -> Z -> list Z -> Z -> M (list Z).

  (** The random source: any state machine.  [randombytes(out, n)] fails (undefined
      behaviour) if the buffer is shorter than [n]. *)
  Context {S : Type}.
  Variable rb : S -> Z -> list Z * S.
  Definition randombytes (st : S) (out : list Z) (n : Z) : M (list Z * S) :=
    if (0 <=? n) && (n <=? len out) then ret (fst (rb st n) ++ zskip n out, snd (rb st n)) else undef.

  (** SABER_indcpa.c:30-36 and 60-66: the rounding loop. *)
  Definition round_loop (c : cfg) (b : list (list Z)) : M (list (list Z)) :=
    for_ 0 (SABER_L c) (fun i b =>
      for_ 0 256 (fun j b =>
        bi <- row b i ;;
        bi <- st U16 bi j ((Idx U16 bi j + Cst I32 (h1 c)) .>> Cst I32 (SABER_EQ c - SABER_EP))%C ;;
        setrow b i bi) b) b.

  (** SABER_indcpa.c:14-43.  Returns the new contents of [pk] and [sk].  [sizeof(seed_A)] in line 42 is SABER_SEEDBYTES. *)
  Definition indcpa_kem_keypair (junk : mem) (c : cfg) (st : S) (pk sk : list Z) : M (list Z * list Z * S) :=
    let A := uninit3 junk 0 (SABER_L c) in
    let s := uninit2 junk 1 (SABER_L c) in
    let b := zeros2 (SABER_L c) in
    let seed_A := uninit junk 2 SABER_SEEDBYTES in
    let seed_s := uninit junk 3 SABER_NOISE_SEEDBYTES in
    '(seed_A, st) <- randombytes st seed_A SABER_SEEDBYTES ;;
    seed_A <- prf (sub junk 4) seed_A SABER_SEEDBYTES seed_A SABER_SEEDBYTES ;;
    '(seed_s, st) <- randombytes st seed_s SABER_NOISE_SEEDBYTES ;;
    A <- GenMatrix prf (sub junk 5) c A seed_A ;;
    s <- GenSecret prf (sub junk 6) c s seed_s ;;
    b <- MatrixVectorMul (sub junk 7) c A s b 1 ;;
    b <- round_loop c b ;;
    sk <- POLVECq2BS c sk s ;;
    pk <- POLVECp2BS c pk b ;;
    pk <- at_ pk (SABER_POLYVECCOMPRESSEDBYTES c) (fun p => memcpy p seed_A SABER_SEEDBYTES) ;;
    ret (pk, sk, st).

  (** SABER_indcpa.c:45-80.  Returns the new contents of [ciphertext]. *)
  Definition indcpa_kem_enc (junk : mem) (c : cfg) (m seed_sp pk ciphertext : list Z) : M (list Z) :=
    let A := uninit3 junk 0 (SABER_L c) in
    let sp := uninit2 junk 1 (SABER_L c) in
    let bp := zeros2 (SABER_L c) in
    let vp := zeros 256 in
    let mp := uninit junk 2 256 in
    let b := uninit2 junk 3 (SABER_L c) in
    seed_A <- ptr pk (SABER_POLYVECCOMPRESSEDBYTES c) ;;
    A <- GenMatrix prf (sub junk 4) c A seed_A ;;
    sp <- GenSecret prf (sub junk 5) c sp seed_sp ;;
    bp <- MatrixVectorMul (sub junk 6) c A sp bp 0 ;;
    bp <- round_loop c bp ;;
    ciphertext <- POLVECp2BS c ciphertext bp ;;
    b <- BS2POLVECp c pk b ;;
    vp <- InnerProd (sub junk 7) c b sp vp ;;
    mp <- BS2POLmsg m mp ;;
    vp <- for_ 0 256 (fun j vp =>
      CMon.st U16 vp j
        ((Idx U16 vp j - (Idx U16 mp j .<< Cst I32 (SABER_EP - 1)) + Cst I32 (h1 c)) .>> Cst I32 (SABER_EP - SABER_ET c))%C) vp ;;
    at_ ciphertext (SABER_POLYVECCOMPRESSEDBYTES c) (fun p => POLT2BS c p vp).

  (** SABER_indcpa.c:82-102.  Returns the new contents of [m]. *)
  Definition indcpa_kem_dec (junk : mem) (c : cfg) (sk ciphertext m : list Z) : M (list Z) :=
    let s := uninit2 junk 0 (SABER_L c) in
    let b := uninit2 junk 1 (SABER_L c) in
    let v := zeros 256 in
    let cm := uninit junk 2 256 in
    s <- BS2POLVECq c sk s ;;
    b <- BS2POLVECp c ciphertext b ;;
    v <- InnerProd (sub junk 3) c b s v ;;
    p <- ptr ciphertext (SABER_POLYVECCOMPRESSEDBYTES c) ;;
    cm <- BS2POLT c p cm ;;
    v <- for_ 0 256 (fun i v =>
      CMon.st U16 v i
        ((Idx U16 v i + Cst I32 (h2 c) - (Idx U16 cm i .<< Cst I32 (SABER_EP - SABER_ET c))) .>> Cst I32 (SABER_EP - 1))%C) v ;;
    POLmsg2BS m v.
End Indcpa.
