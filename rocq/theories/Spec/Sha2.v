(** FIPS 180-4: SHA-256 and SHA-512, on byte strings.  Section numbers refer to the standard. *)
From Coq Require Import ZArith List Sorted.
From Verif Require Import Lib.Arr Spec.Bytes.
Import ListNotations.
Local Open Scope Z_scope.

(** What distinguishes the two functions: the word size in bits, the amounts in the functions of 4.1.2 and 4.1.3, the
    constants of 4.2.2 and 4.2.3 and the initial hash value of 5.3.3 and 5.3.5. *)
Record sha2 := Sha2 {
  wbits : Z;
  r_S0 : Z * Z * Z; r_S1 : Z * Z * Z;      (* three rotations *)
  r_s0 : Z * Z * Z; r_s1 : Z * Z * Z;      (* two rotations and a shift *)
  sK : list Z; sH0 : list Z }.

(** The eight working variables a, ..., h. *)
Record vars := Vars { va : Z; vb : Z; vc : Z; vd : Z; ve : Z; vf : Z; vg : Z; vh : Z }.
Definition vlist (v : vars) : list Z := [va v; vb v; vc v; vd v; ve v; vf v; vg v; vh v].
Definition lvars (l : list Z) : vars := Vars (get l 0) (get l 1) (get l 2) (get l 3) (get l 4) (get l 5) (get l 6) (get l 7).

Section Sha2.
  Variable s : sha2.
  Let w := wbits s.

  (** 3.2: rotation and shift of a [w]-bit word; complement. *)
  Definition rotr (n x : Z) : Z := x / 2 ^ n + (x mod 2 ^ n) * 2 ^ (w - n).
  Definition shr (n x : Z) : Z := x / 2 ^ n.
  Definition compl (x : Z) : Z := 2 ^ w - 1 - x.

  (** 4.1.2, 4.1.3 *)
  Definition Ch (x y z : Z) : Z := Z.lxor (Z.land x y) (Z.land (compl x) z).
  Definition Maj (x y z : Z) : Z := Z.lxor (Z.lxor (Z.land x y) (Z.land x z)) (Z.land y z).
  Definition bsig (r : Z * Z * Z) (x : Z) : Z := let '(i, j, k) := r in Z.lxor (Z.lxor (rotr i x) (rotr j x)) (rotr k x).
  Definition ssig (r : Z * Z * Z) (x : Z) : Z := let '(i, j, k) := r in Z.lxor (Z.lxor (rotr i x) (rotr j x)) (shr k x).

  (** 6.2.2, 6.4.2, step 1: the message schedule of a block of 16 words, extended by [n] words. *)
  Fixpoint schedule (n : nat) (M : list Z) : list Z :=
    match n with
    | O => M
    | S m => let W := schedule m M in
        let t := len W in
        W ++ [(ssig (r_s1 s) (get W (t - 2)) + get W (t - 7) + ssig (r_s0 s) (get W (t - 15)) + get W (t - 16)) mod 2 ^ w]
    end.

  (** Step 3. *)
  Definition round (k wt : Z) (v : vars) : vars :=
    let T1 := (vh v + bsig (r_S1 s) (ve v) + Ch (ve v) (vf v) (vg v) + k + wt) mod 2 ^ w in
    let T2 := (bsig (r_S0 s) (va v) + Maj (va v) (vb v) (vc v)) mod 2 ^ w in
    Vars ((T1 + T2) mod 2 ^ w) (va v) (vb v) (vc v) ((vd v + T1) mod 2 ^ w) (ve v) (vf v) (vg v).
  Fixpoint rounds (n : nat) (W : list Z) (v : vars) : vars :=
    match n with O => v | S m => round (get (sK s) (Z.of_nat m)) (get W (Z.of_nat m)) (rounds m W v) end.

  (** Steps 2 to 4. *)
  Definition compress (H M : list Z) : list Z :=
    let r := length (sK s) in
    let v := vlist (rounds r (schedule (r - 16) M) (lvars H)) in
    ztab 8 (fun i => (get v i + get H i) mod 2 ^ w).

  (** 5.2: the 16 words of block [i]. *)
  Definition block (P : list Z) (i : Z) : list Z :=
    ztab 16 (fun j => be_val (zfirst (w / 8) (zskip (w / 8 * (16 * i + j)) P))).
  Fixpoint hash_blocks (n : nat) (P H : list Z) : list Z :=
    match n with O => H | S m => compress (hash_blocks m P H) (block P (Z.of_nat m)) end.

  (** 5.1: padding to a multiple of 16 words = 2w bytes; the length field has 2w bits = w/4 bytes. *)
  Definition padding (n : Z) : list Z := [128] ++ zeros ((- n - 1 - w / 4) mod (2 * w)) ++ be (w / 4) (8 * n).

  Definition sha2_hash (M : list Z) : list Z :=
    let P := M ++ padding (len M) in
    flat_map (be (w / 8)) (hash_blocks (Z.to_nat (len P / (2 * w))) P (sH0 s)).
End Sha2.

(** 4.2.2, 5.3.3 *)
Definition K256 : list Z := [0x428a2f98; 0x71374491; 0xb5c0fbcf; 0xe9b5dba5; 0x3956c25b; 0x59f111f1; 0x923f82a4; 0xab1c5ed5; 0xd807aa98; 0x12835b01; 0x243185be; 0x550c7dc3; 0x72be5d74; 0x80deb1fe; 0x9bdc06a7; 0xc19bf174; 0xe49b69c1; 0xefbe4786; 0x0fc19dc6; 0x240ca1cc; 0x2de92c6f; 0x4a7484aa; 0x5cb0a9dc; 0x76f988da; 0x983e5152; 0xa831c66d; 0xb00327c8; 0xbf597fc7; 0xc6e00bf3; 0xd5a79147; 0x06ca6351; 0x14292967; 0x27b70a85; 0x2e1b2138; 0x4d2c6dfc; 0x53380d13; 0x650a7354; 0x766a0abb; 0x81c2c92e; 0x92722c85; 0xa2bfe8a1; 0xa81a664b; 0xc24b8b70; 0xc76c51a3; 0xd192e819; 0xd6990624; 0xf40e3585; 0x106aa070; 0x19a4c116; 0x1e376c08; 0x2748774c; 0x34b0bcb5; 0x391c0cb3; 0x4ed8aa4a; 0x5b9cca4f; 0x682e6ff3; 0x748f82ee; 0x78a5636f; 0x84c87814; 0x8cc70208; 0x90befffa; 0xa4506ceb; 0xbef9a3f7; 0xc67178f2].
Definition H256 : list Z := [0x6a09e667; 0xbb67ae85; 0x3c6ef372; 0xa54ff53a; 0x510e527f; 0x9b05688c; 0x1f83d9ab; 0x5be0cd19].
(** 4.2.3, 5.3.5 *)
Definition K512 : list Z := [0x428a2f98d728ae22; 0x7137449123ef65cd; 0xb5c0fbcfec4d3b2f; 0xe9b5dba58189dbbc; 0x3956c25bf348b538; 0x59f111f1b605d019; 0x923f82a4af194f9b; 0xab1c5ed5da6d8118; 0xd807aa98a3030242; 0x12835b0145706fbe; 0x243185be4ee4b28c; 0x550c7dc3d5ffb4e2; 0x72be5d74f27b896f; 0x80deb1fe3b1696b1; 0x9bdc06a725c71235; 0xc19bf174cf692694; 0xe49b69c19ef14ad2; 0xefbe4786384f25e3; 0x0fc19dc68b8cd5b5; 0x240ca1cc77ac9c65; 0x2de92c6f592b0275; 0x4a7484aa6ea6e483; 0x5cb0a9dcbd41fbd4; 0x76f988da831153b5; 0x983e5152ee66dfab; 0xa831c66d2db43210; 0xb00327c898fb213f; 0xbf597fc7beef0ee4; 0xc6e00bf33da88fc2; 0xd5a79147930aa725; 0x06ca6351e003826f; 0x142929670a0e6e70; 0x27b70a8546d22ffc; 0x2e1b21385c26c926; 0x4d2c6dfc5ac42aed; 0x53380d139d95b3df; 0x650a73548baf63de; 0x766a0abb3c77b2a8; 0x81c2c92e47edaee6; 0x92722c851482353b; 0xa2bfe8a14cf10364; 0xa81a664bbc423001; 0xc24b8b70d0f89791; 0xc76c51a30654be30; 0xd192e819d6ef5218; 0xd69906245565a910; 0xf40e35855771202a; 0x106aa07032bbd1b8; 0x19a4c116b8d2d0c8; 0x1e376c085141ab53; 0x2748774cdf8eeb99; 0x34b0bcb5e19b48a8; 0x391c0cb3c5c95a63; 0x4ed8aa4ae3418acb; 0x5b9cca4f7763e373; 0x682e6ff3d6b2b8a3; 0x748f82ee5defb2fc; 0x78a5636f43172f60; 0x84c87814a1f0ab72; 0x8cc702081a6439ec; 0x90befffa23631e28; 0xa4506cebde82bde9; 0xbef9a3f7b2c67915; 0xc67178f2e372532b; 0xca273eceea26619c; 0xd186b8c721c0c207; 0xeada7dd6cde0eb1e; 0xf57d4f7fee6ed178; 0x06f067aa72176fba; 0x0a637dc5a2c898a6; 0x113f9804bef90dae; 0x1b710b35131c471b; 0x28db77f523047d84; 0x32caab7b40c72493; 0x3c9ebe0a15c9bebc; 0x431d67c49c100d4c; 0x4cc5d4becb3e42b6; 0x597f299cfc657e2a; 0x5fcb6fab3ad6faec; 0x6c44198c4a475817].
Definition H512 : list Z := [0x6a09e667f3bcc908; 0xbb67ae8584caa73b; 0x3c6ef372fe94f82b; 0xa54ff53a5f1d36f1; 0x510e527fade682d1; 0x9b05688c2b3e6c1f; 0x1f83d9abfb41bd6b; 0x5be0cd19137e2179].

Definition sha256_alg : sha2 := Sha2 32 (2, 13, 22) (6, 11, 25) (7, 18, 3) (17, 19, 10) K256 H256.
Definition sha512_alg : sha2 := Sha2 64 (28, 34, 39) (14, 18, 41) (1, 8, 7) (19, 61, 6) K512 H512.

Definition SHA256 : list Z -> list Z := sha2_hash sha256_alg.
Definition SHA512 : list Z -> list Z := sha2_hash sha512_alg.

(** What the standard says about the constants: the first [w] bits of the fractional parts of the cube roots of the
    first primes, and of the square roots of the first eight primes. *)
Definition is_prime (n : Z) : Prop := 1 < n /\ forall d, 1 < d < n -> n mod d <> 0.
(** [k] is the first [w] fractional bits of the [e]-th root of [p]. *)
Definition root_frac (e w p k : Z) : Prop :=
  0 <= k < 2 ^ w /\ exists c, 0 <= c /\ (c * 2 ^ w + k) ^ e <= p * 2 ^ (e * w) < (c * 2 ^ w + k + 1) ^ e.
(** [ps] are the first [len ps] primes, in order. *)
Definition first_primes (ps : list Z) : Prop :=
  Forall is_prime ps /\ StronglySorted Z.lt ps /\ forall q, is_prime q -> In q ps \/ Forall (fun p => p < q) ps.
