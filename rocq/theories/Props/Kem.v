(** C01-C12, C31: the key-encapsulation mechanism. *)
From Coq Require Import ZArith List.
From Verif Require Import Lib.Arr Lib.CInt Lib.CMon Spec.Bits Spec.Ring Spec.Saber Spec.Noise Spec.Sym
  Model.Params Model.Indcpa Model.Kem Model.Api Proof.IndcpaP Proof.NoiseP Proof.KemThm Proof.KemEx.
Import ListNotations.
Local Open Scope Z_scope.

(** Parameter sets; the third component of a configuration selects the primitives of the 90s variants. *)
Example par_sets : forall b, map par [Cfg Light false b; Cfg Saber false b; Cfg Fire false b;
                                      Cfg Light true b; Cfg Saber true b; Cfg Fire true b] =
  [lightsaber; saber; firesaber; ulightsaber; usaber_; ufiresaber].
Proof. reflexivity. Qed.

(** A random source, used in the examples. *)
Example a_source : source_ok counter.
Proof. exact counter_ok. Qed.

(** ** C01: encapsulated and decapsulated keys agree if every noise coefficient is in the window. *)
Theorem C01_keys_agree : forall S (rb : S -> Z -> list Z * S), source_ok rb ->
  forall c junk1 junk2 junk3 st st' pk0 sk0 ct0 k0 k1 pk sk st2 ret1 ct k st3 ret2,
  pk_buf c pk0 -> sk_buf c sk0 -> ct_buf c ct0 -> ss_buf k0 -> ss_buf k1 ->
  run (keypair rb junk1 c st pk0 sk0) = Some (pk, sk, st2, ret1) ->
  run (enc rb junk2 c st' ct0 k0 pk) = Some (ct, k, st3, ret2) ->
  (forall i, 0 <= i < 256 -> in_window (kem_noise (HashH (s90 c)) (HashG (s90 c)) (PRF (s90 c)) (par c) (draw1 rb st) (draw2 rb st) (draw1 rb st') i)) ->
  run (dec junk3 c k1 ct sk) = Some (k, 0).
Proof. exact @roundtrip. Qed.
Print Assumptions C01_keys_agree.

Example C01_window_case : forall i, 0 <= i < 256 ->
  in_window (kem_noise (HashH (s90 ex_c)) (HashG (s90 ex_c)) (PRF (s90 ex_c)) (par ex_c) (draw1 counter 0) (draw2 counter 0) (draw1 counter 96) i).
Proof. exact ex_window. Qed.

(** ** C02: a bit is decrypted correctly exactly when its noise coefficient is in the window. *)
Theorem C02_bit_iff_window : forall S (rb : S -> Z -> list Z * S), source_ok rb ->
  forall c junk1 junk2 junk3 st pk0 sk0 m r ct0 m0,
  len pk0 = SABER_INDCPA_PUBLICKEYBYTES c -> len sk0 = SABER_INDCPA_SECRETKEYBYTES c ->
  len ct0 = SABER_BYTES_CCA_DEC c -> len m0 = 32 -> arr U8 32 m -> arr U8 32 r ->
  exists pk sk st' ct m',
    run (indcpa_kem_keypair (prf c) rb junk1 c st pk0 sk0) = Some (pk, sk, st') /\
    run (indcpa_kem_enc (prf c) junk2 c m r pk ct0) = Some ct /\
    run (indcpa_kem_dec junk3 c sk ct m0) = Some m' /\
    forall i, 0 <= i < 256 ->
      (fbit 8 m' i = fbit 8 m i <->
       in_window (noise (par c) (expand_A (PRF (s90 c)) (par c) (PRF (s90 c) 32 (draw1 rb st))) (expand_s (PRF (s90 c)) (par c) (draw2 rb st))
                    (expand_s (PRF (s90 c)) (par c) r) (unpack 1 m) i)).
Proof. exact @pke_bit_api. Qed.
Print Assumptions C02_bit_iff_window.

Example C02_case : len (zeros 672) = SABER_INDCPA_PUBLICKEYBYTES ex_c /\ len (zeros 832) = SABER_INDCPA_SECRETKEYBYTES ex_c /\
  len (zeros 736) = SABER_BYTES_CCA_DEC ex_c /\ len (zeros 32) = 32 /\ arr U8 32 (draw1 counter 7) /\ arr U8 32 (draw2 counter 7).
Proof. repeat (split; [reflexivity|]). split; apply arrb_ok; reflexivity. Qed.

(** The same for arbitrary matrix and secrets, not only those that have a seed. *)
Theorem C02_any_matrix : forall c A s s' s2 m k, 0 <= k < 256 -> (get m k = 0 \/ get m k = 1) ->
  (forall i, 0 <= i < SABER_L c -> forall j, 0 <= j < 256 -> exists q, get (getr s2 i) j = get (getr s i) j + 2 ^ 10 * q) ->
  get (dec_msg (par c) (ct_vec (par c) A s') s2 (ct_msg (par c) (pub_vec (par c) A s) s' m)) k = get m k <->
  in_window (noise (par c) A s s' m k).
Proof. exact dec_msg_iff. Qed.
Print Assumptions C02_any_matrix.

(** Decryption is not unconditionally correct. *)
Theorem C02_unconditional_refuted : forall l, exists A s s' k,
  let c := Cfg l false false in
  0 <= k < 256 /\
  Forall (Forall (Forall (fun x => 0 <= x < 8192))) A /\
  Forall (Forall (fun x => - (SABER_MU c / 2) <= x <= SABER_MU c / 2)) s /\
  Forall (Forall (fun x => - (SABER_MU c / 2) <= x <= SABER_MU c / 2)) s' /\
  get (dec_msg (par c) (ct_vec (par c) A s') s (ct_msg (par c) (pub_vec (par c) A s) s' (zeros 256))) k <> get (zeros 256) k.
Proof. exact unconditional_refuted. Qed.
Print Assumptions C02_unconditional_refuted.

(** ** C03: implicit rejection. *)
Theorem C03_implicit_rejection : forall junk c k ct sk, ss_buf k -> ct_bytes c ct -> sk_bytes c sk ->
  ct <> dec_ct (HashG (s90 c)) (PRF (s90 c)) (par c) sk ct ->
  run (dec junk c k ct sk) = Some (HashH (s90 c) (zskip (len sk - 32) sk ++ HashH (s90 c) ct), 0).
Proof. exact dec_reject. Qed.
Print Assumptions C03_implicit_rejection.

Example C03_case : sk_bytes ex_c ex_sk0 /\ exists ct, ct_bytes ex_c ct /\ ct <> dec_ct (HashG (s90 ex_c)) (PRF (s90 ex_c)) (par ex_c) ex_sk0 ct.
Proof. split; [apply ex_bytes0|exact ex_reject]. Qed.

(** ** C04: only the exact re-encryption is accepted. *)
Theorem C04_accepted_only_if_reencryption : forall junk c k ct sk, ss_buf k -> ct_bytes c ct -> sk_bytes c sk ->
  ct = dec_ct (HashG (s90 c)) (PRF (s90 c)) (par c) sk ct ->
  run (dec junk c k ct sk) = Some (HashH (s90 c) (zfirst 32 (dec_kr (HashG (s90 c)) (par c) sk ct) ++ HashH (s90 c) ct), 0).
Proof. exact dec_accept. Qed.
Print Assumptions C04_accepted_only_if_reencryption.

Example C04_case : ct_bytes ex_c ex_ct /\ sk_bytes ex_c ex_sk /\ ex_ct = dec_ct (HashG (s90 ex_c)) (PRF (s90 ex_c)) (par ex_c) ex_sk ex_ct.
Proof. split; [apply ex_bytes|]. split; [apply ex_bytes|exact ex_accept]. Qed.

Theorem C04_not_two_accepted : forall junk c k ct1 ct2 sk, ss_buf k -> ct_bytes c ct1 -> ct_bytes c ct2 -> sk_bytes c sk ->
  ct1 <> ct2 -> dec_m (par c) sk ct1 = dec_m (par c) sk ct2 ->
  run (dec junk c k ct1 sk) = Some (HashH (s90 c) (zskip (len sk - 32) sk ++ HashH (s90 c) ct1), 0) \/
  run (dec junk c k ct2 sk) = Some (HashH (s90 c) (zskip (len sk - 32) sk ++ HashH (s90 c) ct2), 0).
Proof. exact dec_unique. Qed.
Print Assumptions C04_not_two_accepted.

Example C04_two_case : ct_bytes ex_c ex_ct1 /\ ct_bytes ex_c ex_ct2 /\ sk_bytes ex_c ex_sk0 /\ ex_ct1 <> ex_ct2 /\
  dec_m (par ex_c) ex_sk0 ex_ct1 = dec_m (par ex_c) ex_sk0 ex_ct2.
Proof. split; [apply ex_bytes0|]. split; [apply ex_bytes0|]. split; [apply ex_bytes0|]. split; [exact ex_ct2_ne|exact ex_same_m]. Qed.

(** ** C05, C06, C07: the functions compute what the specification says. *)
Theorem C05_keypair : forall S (rb : S -> Z -> list Z * S), source_ok rb ->
  forall junk c st pk sk, pk_buf c pk -> sk_buf c sk ->
  run (keypair rb junk c st pk sk) =
  let '(r1, s1) := rb st 32 in let '(r2, s2) := rb s1 32 in let '(z, s3) := rb s2 32 in
  Some (kem_pk (PRF (s90 c)) (par c) r1 r2, kem_sk (HashH (s90 c)) (PRF (s90 c)) (par c) r1 r2 z, s3, 0).
Proof. exact @keypair_ok. Qed.
Print Assumptions C05_keypair.

Theorem C06_enc : forall S (rb : S -> Z -> list Z * S), source_ok rb ->
  forall junk c st ct k pk, ct_buf c ct -> ss_buf k -> pk_bytes c pk ->
  run (enc rb junk c st ct k pk) =
  let '(r, s1) := rb st 32 in
  let '(ct, k) := kem_enc (HashH (s90 c)) (HashG (s90 c)) (PRF (s90 c)) (par c) pk r in
  Some (ct, k, s1, 0).
Proof. exact @enc_ok. Qed.
Print Assumptions C06_enc.

Theorem C07_dec : forall junk c k ct sk, ss_buf k -> ct_bytes c ct -> sk_bytes c sk ->
  run (dec junk c k ct sk) = Some (kem_dec (HashH (s90 c)) (HashG (s90 c)) (PRF (s90 c)) (par c) sk ct, 0).
Proof. exact dec_ok. Qed.
Print Assumptions C07_dec.

(** Buffers and inputs for C05-C12: all contents are allowed, only sizes (and the byte range of inputs) matter. *)
Example C05_C12_case : pk_buf ex_c (repeat (-1) 672) /\ sk_buf ex_c (repeat 300 1568) /\ ct_buf ex_c (repeat 77777 736) /\ ss_buf (zeros 32) /\
  pk_bytes ex_c ex_pk /\ sk_bytes ex_c ex_sk /\ ct_bytes ex_c ex_ct.
Proof. repeat (split; [reflexivity|]). split; [apply ex_bytes|]. split; apply ex_bytes. Qed.
(** ** C08: no undefined behaviour. *)
Theorem C08_keypair : forall S (rb : S -> Z -> list Z * S), source_ok rb ->
  forall junk c st pk sk, pk_buf c pk -> sk_buf c sk -> run (keypair rb junk c st pk sk) <> None.
Proof. exact @keypair_ne. Qed.
Print Assumptions C08_keypair.

Theorem C08_enc : forall S (rb : S -> Z -> list Z * S), source_ok rb ->
  forall junk c st ct k pk, ct_buf c ct -> ss_buf k -> pk_bytes c pk -> run (enc rb junk c st ct k pk) <> None.
Proof. exact @enc_ne. Qed.
Print Assumptions C08_enc.

Theorem C08_dec : forall junk c k ct sk, ss_buf k -> ct_bytes c ct -> sk_bytes c sk -> run (dec junk c k ct sk) <> None.
Proof. exact dec_ne. Qed.
Print Assumptions C08_dec.

(** ** C09: results do not depend on old buffer contents or uninitialised memory. *)
Theorem C09_keypair : forall S (rb : S -> Z -> list Z * S), source_ok rb ->
  forall junk junk' c st pk pk' sk sk', pk_buf c pk -> sk_buf c sk -> pk_buf c pk' -> sk_buf c sk' ->
  run (keypair rb junk c st pk sk) = run (keypair rb junk' c st pk' sk').
Proof. exact @keypair_indep. Qed.
Print Assumptions C09_keypair.

Theorem C09_enc : forall S (rb : S -> Z -> list Z * S), source_ok rb ->
  forall junk junk' c st ct ct' k k' pk, ct_buf c ct -> ss_buf k -> ct_buf c ct' -> ss_buf k' -> pk_bytes c pk ->
  run (enc rb junk c st ct k pk) = run (enc rb junk' c st ct' k' pk).
Proof. exact @enc_indep. Qed.
Print Assumptions C09_enc.

Theorem C09_dec : forall junk junk' c k k' ct sk, ss_buf k -> ss_buf k' -> ct_bytes c ct -> sk_bytes c sk ->
  run (dec junk c k ct sk) = run (dec junk' c k' ct sk).
Proof. exact dec_indep. Qed.
Print Assumptions C09_dec.

(** ** C10: requests to the random source; [dec] takes none. *)
Theorem C10_keypair_requests : forall S (rb : S -> Z -> list Z * S) junk c st log pk sk, source_ok rb -> pk_buf c pk -> sk_buf c sk ->
  exists pk' sk' st', run (keypair (logged rb) junk c (st, log) pk sk) = Some (pk', sk', (st', log ++ [32; 32; 32]), 0).
Proof. exact keypair_log. Qed.
Print Assumptions C10_keypair_requests.

Theorem C10_enc_requests : forall S (rb : S -> Z -> list Z * S) junk c st log ct k pk, source_ok rb -> ct_buf c ct -> ss_buf k -> pk_bytes c pk ->
  exists ct' k' st', run (enc (logged rb) junk c (st, log) ct k pk) = Some (ct', k', (st', log ++ [32]), 0).
Proof. exact enc_log. Qed.
Print Assumptions C10_enc_requests.

Theorem C10_keypair_function_of_bytes : forall S S' (rb : S -> Z -> list Z * S) (rb' : S' -> Z -> list Z * S') junk junk' c st st' pk sk pk' sk',
  source_ok rb -> source_ok rb' -> pk_buf c pk -> sk_buf c sk -> pk_buf c pk' -> sk_buf c sk' ->
  draw1 rb st = draw1 rb' st' -> draw2 rb st = draw2 rb' st' -> draw3 rb st = draw3 rb' st' ->
  option_map (fun x => (fst (fst x), snd x)) (run (keypair rb junk c st pk sk)) =
  option_map (fun x => (fst (fst x), snd x)) (run (keypair rb' junk' c st' pk' sk')).
Proof. exact keypair_same. Qed.
Print Assumptions C10_keypair_function_of_bytes.

Theorem C10_enc_function_of_bytes : forall S S' (rb : S -> Z -> list Z * S) (rb' : S' -> Z -> list Z * S') junk junk' c st st' ct k ct' k' pk,
  source_ok rb -> source_ok rb' -> ct_buf c ct -> ss_buf k -> ct_buf c ct' -> ss_buf k' -> pk_bytes c pk ->
  draw1 rb st = draw1 rb' st' ->
  option_map (fun x => (fst (fst x), snd x)) (run (enc rb junk c st ct k pk)) =
  option_map (fun x => (fst (fst x), snd x)) (run (enc rb' junk' c st' ct' k' pk)).
Proof. exact enc_same. Qed.
Print Assumptions C10_enc_function_of_bytes.

Example C10_case : source_ok counter /\ source_ok (logged counter) /\ draw1 counter 0 = draw1 (logged counter) (0, []).
Proof. split; [exact counter_ok|]. split; [apply logged_ok; exact counter_ok|reflexivity]. Qed.

(** ** C11, C12: traces of addresses and branches. *)
Theorem C11_dec_constant_time : forall junk junk' c k k' ct ct' sk sk', ss_buf k -> ct_bytes c ct -> sk_bytes c sk ->
  ss_buf k' -> ct_bytes c ct' -> sk_bytes c sk' ->
  leak (dec junk c k ct sk) = leak (dec junk' c k' ct' sk') /\ leak (dec junk c k ct sk) <> None.
Proof. exact dec_leak_some. Qed.
Print Assumptions C11_dec_constant_time.

Theorem C12_keypair_constant_time : forall S (rb : S -> Z -> list Z * S), source_ok rb ->
  forall junk junk' c st st' pk pk' sk sk', pk_buf c pk -> sk_buf c sk -> pk_buf c pk' -> sk_buf c sk' ->
  leak (keypair rb junk c st pk sk) = leak (keypair rb junk' c st' pk' sk') /\ leak (keypair rb junk c st pk sk) <> None.
Proof. exact @keypair_leak_some. Qed.
Print Assumptions C12_keypair_constant_time.

Theorem C12_enc_constant_time : forall S (rb : S -> Z -> list Z * S), source_ok rb ->
  forall junk junk' c st st' ct ct' k k' pk pk', ct_buf c ct -> ss_buf k -> pk_bytes c pk ->
  ct_buf c ct' -> ss_buf k' -> pk_bytes c pk' ->
  leak (enc rb junk c st ct k pk) = leak (enc rb junk' c st' ct' k' pk') /\ leak (enc rb junk c st ct k pk) <> None.
Proof. exact @enc_leak_some. Qed.
Print Assumptions C12_enc_constant_time.

(** ** C31: layout of a generated secret key, and decapsulation with it. *)
Theorem C31_layout : forall S (rb : S -> Z -> list Z * S), source_ok rb ->
  forall junk c st pk0 sk0, pk_buf c pk0 -> sk_buf c sk0 ->
  exists pk sk st' s, run (keypair rb junk c st pk0 sk0) = Some (pk, sk, st', 0) /\
    len s = SABER_INDCPA_SECRETKEYBYTES c /\ len pk = SABER_PUBLICKEYBYTES c /\
    sk = s ++ pk ++ HashH (s90 c) pk ++ draw3 rb st.
Proof. exact @layout. Qed.
Print Assumptions C31_layout.

Theorem C31_dec_uses_embedded : forall junk c k ct s pk h z, ss_buf k -> ct_bytes c ct ->
  arr U8 (SABER_INDCPA_SECRETKEYBYTES c) s -> pk_bytes c pk -> arr U8 32 h -> arr U8 32 z ->
  run (dec junk c k ct (s ++ pk ++ h ++ z)) =
  let m := pke_dec (par c) s ct in
  let kr := HashG (s90 c) (m ++ h) in
  if list_eq_dec Z.eq_dec ct (pke_enc (PRF (s90 c)) (par c) pk m (zskip 32 kr))
  then Some (HashH (s90 c) (zfirst 32 kr ++ HashH (s90 c) ct), 0)
  else Some (HashH (s90 c) (z ++ HashH (s90 c) ct), 0).
Proof. exact dec_embedded. Qed.
Print Assumptions C31_dec_uses_embedded.

Example C31_case : arr U8 (SABER_INDCPA_SECRETKEYBYTES ex_c) (zeros 832) /\ pk_bytes ex_c ex_pk /\
  arr U8 32 (draw1 counter 5) /\ arr U8 32 (draw2 counter 5).
Proof. split; [apply arrb_ok; vm_compute; reflexivity|]. split; [apply ex_bytes|]. split; apply counter_ok; discriminate. Qed.
