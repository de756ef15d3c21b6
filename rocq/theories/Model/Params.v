(** Compile-time configuration.
    Reference_Implementation_KEM/SABER_params.h:4-46 and
    Variants/uSaber-90s/ref/SABER_params.h:4-57.  The [#if] alternatives are the
    values of [level] and of two flags; the reference implementation is the
    configuration with both flags off. *)
From Coq Require Import ZArith.
Local Open Scope Z_scope.

Inductive level := Light | Saber | Fire.

Record cfg := Cfg { lvl : level; usaber : bool; s90 : bool }.

Definition SABER_L (c : cfg) : Z := match lvl c with Light => 2 | Saber => 3 | Fire => 4 end.
Definition SABER_MU (c : cfg) : Z := match lvl c with Light => 10 | Saber => 8 | Fire => 6 end.
Definition SABER_ET (c : cfg) : Z := match lvl c with Light => 3 | Saber => 4 | Fire => 6 end.
Definition SABER_EQ (c : cfg) : Z := if usaber c then 12 else 13.
Definition SABER_EP : Z := 10.
Definition SABER_N : Z := 256.
Definition SABER_POLYCOINBYTES (c : cfg) : Z :=
  if usaber c then 2 * SABER_N / 8 else SABER_MU c * SABER_N / 8.

Definition SABER_SEEDBYTES : Z := 32.
Definition SABER_NOISE_SEEDBYTES : Z := 32.
Definition SABER_KEYBYTES : Z := 32.
Definition SABER_HASHBYTES : Z := 32.

Definition SABER_POLYBYTES (c : cfg) : Z := SABER_EQ c * SABER_N / 8.
Definition SABER_POLYVECBYTES (c : cfg) : Z := SABER_L c * SABER_POLYBYTES c.
Definition SABER_POLYCOMPRESSEDBYTES : Z := SABER_EP * SABER_N / 8.
Definition SABER_POLYVECCOMPRESSEDBYTES (c : cfg) : Z := SABER_L c * SABER_POLYCOMPRESSEDBYTES.
Definition SABER_SCALEBYTES_KEM (c : cfg) : Z := SABER_ET c * SABER_N / 8.
Definition SABER_INDCPA_PUBLICKEYBYTES (c : cfg) : Z := SABER_POLYVECCOMPRESSEDBYTES c + SABER_SEEDBYTES.
Definition SABER_INDCPA_SECRETKEYBYTES (c : cfg) : Z := SABER_POLYVECBYTES c.
Definition SABER_PUBLICKEYBYTES (c : cfg) : Z := SABER_INDCPA_PUBLICKEYBYTES c.
Definition SABER_SECRETKEYBYTES (c : cfg) : Z :=
  SABER_INDCPA_SECRETKEYBYTES c + SABER_INDCPA_PUBLICKEYBYTES c + SABER_HASHBYTES + SABER_KEYBYTES.
Definition SABER_BYTES_CCA_DEC (c : cfg) : Z := SABER_POLYVECCOMPRESSEDBYTES c + SABER_SCALEBYTES_KEM c.

(** SABER_indcpa.c:11-12. *)
Definition h1 (c : cfg) : Z := 2 ^ (SABER_EQ c - SABER_EP - 1).
Definition h2 (c : cfg) : Z :=
  2 ^ (SABER_EP - 2) - 2 ^ (SABER_EP - SABER_ET c - 1) + 2 ^ (SABER_EQ c - SABER_EP - 1).
