(** The key-encapsulation interface (api.h) with the primitives the reference implementation uses, the
    sizes of its buffers, and random sources. *)
From Coq Require Import ZArith List.
From Verif Require Import Lib.Arr Lib.CInt Lib.CMon Model.Params Model.Kem Model.Fips202 Model.Sha2 Model.Aes.
Import ListNotations.
Local Open Scope Z_scope.

(** A random source delivers as many bytes as requested. *)
Definition source_ok {S} (rb : S -> Z -> list Z * S) : Prop := forall st n, 0 <= n -> arr U8 n (fst (rb st n)).

(** Variants/uSaber-90s/ref/symmetric.h:8-27: the primitives by the flag Saber90s; the code in
    Reference_Implementation_KEM calls those without the flag.  saber_aes256ctr_prf has no argument for the input length. *)
Definition hash_h (c : cfg) : mem -> list Z -> list Z -> Z -> M (list Z) := if s90 c then sha256 else sha3_256.
Definition hash_g (c : cfg) : mem -> list Z -> list Z -> Z -> M (list Z) := if s90 c then sha512 else sha3_512.
Definition prf (c : cfg) (junk : mem) (out : list Z) (outlen : Z) (inp : list Z) (inlen : Z) : M (list Z) :=
  if s90 c then saber_aes256ctr_prf junk out outlen inp else shake128 junk out outlen inp inlen.

Definition keypair {S} (rb : S -> Z -> list Z * S) (junk : mem) (c : cfg) := crypto_kem_keypair (hash_h c) (prf c) rb junk c.
Definition enc {S} (rb : S -> Z -> list Z * S) (junk : mem) (c : cfg) := crypto_kem_enc (hash_h c) (hash_g c) (prf c) rb junk c.
Definition dec (junk : mem) (c : cfg) := crypto_kem_dec (hash_h c) (hash_g c) (prf c) junk c.

(** Buffers of the documented sizes. *)
Definition pk_buf (c : cfg) (b : list Z) : Prop := len b = SABER_PUBLICKEYBYTES c.
Definition sk_buf (c : cfg) (b : list Z) : Prop := len b = SABER_SECRETKEYBYTES c.
Definition ct_buf (c : cfg) (b : list Z) : Prop := len b = SABER_BYTES_CCA_DEC c.
Definition ss_buf (b : list Z) : Prop := len b = 32.
Definition pk_bytes (c : cfg) (b : list Z) : Prop := arr U8 (SABER_PUBLICKEYBYTES c) b.
Definition sk_bytes (c : cfg) (b : list Z) : Prop := arr U8 (SABER_SECRETKEYBYTES c) b.
Definition ct_bytes (c : cfg) (b : list Z) : Prop := arr U8 (SABER_BYTES_CCA_DEC c) b.

(** The random bytes a call draws: successive requests of 32 bytes. *)
Definition draw1 {S} (rb : S -> Z -> list Z * S) (st : S) : list Z := fst (rb st 32).
Definition draw2 {S} (rb : S -> Z -> list Z * S) (st : S) : list Z := fst (rb (snd (rb st 32)) 32).
Definition draw3 {S} (rb : S -> Z -> list Z * S) (st : S) : list Z := fst (rb (snd (rb (snd (rb st 32)) 32)) 32).

(** The source with a log of the requested lengths. *)
Definition logged {S} (rb : S -> Z -> list Z * S) (st : S * list Z) (n : Z) : list Z * (S * list Z) :=
  (fst (rb (fst st) n), (snd (rb (fst st) n), snd st ++ [n])).
