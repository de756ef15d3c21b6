(** The primitives of each variant meet the interface of the key-encapsulation functions. *)
From Coq Require Import ZArith List Bool Lia.
From Verif Require Import Lib.Arr Lib.CInt Lib.CMon Spec.Keccak Spec.Sha2 Spec.Aes Spec.Sym Model.Params Model.Fips202 Model.Sha2 Model.Aes Model.Api
  Proof.PolyP Proof.KemP Proof.CtP Proof.SpongeP Proof.SpongeCt Proof.Sha2Thm Proof.Sha2Ct Proof.AesP Proof.AesCt Proof.AesThm.
Import ListNotations.
Local Open Scope Z_scope.

Lemma HashH_arr : forall b x, arr U8 32 (HashH b x).
Proof. intros []; [exact SHA256_arr|exact SHA3_256_arr]. Qed.
Lemma HashG_arr : forall b x, arr U8 64 (HashG b x).
Proof. intros []; [exact SHA512_arr|exact SHA3_512_arr]. Qed.
Lemma PRF_len : forall b n x, 0 <= n -> len (PRF b n x) = n.
Proof. intros [] n x Hn; [now apply ctr_stream_len|now apply SHAKE128_arr]. Qed.
Lemma PRF_bytes : forall b, bytes_fun (PRF b).
Proof. intros [] n x Hn Hx; [destruct zeros12; now apply ctr_stream_arr|now apply SHAKE128_arr]. Qed.

Lemma aes_prf_spec : prf_spec (fun junk out n inp _ => saber_aes256ctr_prf junk out n inp) (PRF true).
Proof.
  intros junk out n inp Q Hn Hn2 Li Ti HQ. eapply wp_mono; [apply aes256ctr_prf_ok with (key := zfirst 32 inp); auto; apply zeros12|].
  intros r ->. exact HQ.
Qed.

Lemma hash_h_ok : forall c, hash_spec (hash_h c) 32 (HashH (s90 c)).
Proof. intros [l u []]; [exact sha256_hash|exact sha3_256_ok]. Qed.
Lemma hash_g_ok : forall c, hash_spec (hash_g c) 64 (HashG (s90 c)).
Proof. intros [l u []]; [exact sha512_hash|exact sha3_512_ok]. Qed.
Lemma prf_ok : forall c, prf_spec (prf c) (PRF (s90 c)).
Proof. intros [l u []]; [exact aes_prf_spec|exact shake128_prf]. Qed.

Lemma ct_hash_h : forall c, ct_hash (hash_h c).
Proof. intros [l u []]; [exact ct_sha256|exact ct_sha3_256]. Qed.
Lemma ct_hash_g : forall c, ct_hash (hash_g c).
Proof. intros [l u []]; [exact ct_sha512|exact ct_sha3_512]. Qed.
Lemma ct_prf_ : forall c, ct_prf (prf c).
Proof. intros [l u []]; [|exact ct_shake128]. intros j j' out out' n inp inp' m Ho Hi. now apply ct_saber_prf. Qed.
