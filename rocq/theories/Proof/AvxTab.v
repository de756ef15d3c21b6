(** The vector code of the AVX2 multiplier, run on polynomials and labels. *)
From Coq Require Import ZArith List Bool Lia.
From Verif Require Import Lib.Arr Lib.CInt Lib.CMon Spec.Ring Model.Vec Model.AvxCode Proof.Conv Proof.ArmSym Proof.ArmSymP Proof.ArmKaraP Proof.AvxSym.
Import ListNotations.
Local Open Scope Z_scope.

Definition sym (i : Z) : ah := (16, [(i + 1, 0, 1)]).
Definition symy (i : Z) : ah := (16, [(0, i + 1, 1)]).
Definition tops (n : Z) : list ah := ztab n (fun _ => htop).
Definition res {A} (o : option (list (list A))) (i : Z) : list A := match o with Some r => znth [] r i | None => [] end.
Definition isS {A} (o : option A) : bool := match o with Some _ => true | None => false end.
Definition isn {A} (n : Z) (o : option (list A)) : bool := match o with Some r => len r =? n | None => false end.

(** ** Evaluation: the 63 linear forms of the 16 blocks *)
Definition ev1 (code : Z -> list vstmt) := vexecs haops (map code (seqz 4 0)) [ztab 16 sym; tops 28].
Definition ev2 code c := vexec haops c [] [res (ev1 code) 1; tops 64].
Definition evA : list ah := res (ev2 toom_eval_code batch_eval_code) 1.
Definition evB : list ah := res (ev2 TC_eval_code KARA_eval_code) 1.
Definition evt (q : Z) : poly := snd (znth htop evA q).

Definition lin_poly (p : poly) : bool := forallb (fun '(x, y, _) => (1 <=? x) && (x <=? 16) && (y =? 0)) p.
Definition ev_check : bool :=
  (isn 2 (ev1 toom_eval_code) && isn 2 (ev2 toom_eval_code batch_eval_code) && (len (res (ev1 toom_eval_code) 1) =? 28) && (len evA =? 64)) &&
  (isn 2 (ev1 TC_eval_code) && isn 2 (ev2 TC_eval_code KARA_eval_code) && (len (res (ev1 TC_eval_code) 1) =? 28) && (len evB =? 64)) &&
  upto 63 (fun q => (fst (znth htop evA q) =? 16) && (fst (znth htop evB q) =? 16) && lin_poly (evt q) && peqb 16 (snd (znth htop evB q)) (evt q)).
Lemma ev_checked : ev_check = true. Proof. vm_cast_no_check (eq_refl true). Qed.

(** ** Transposition *)
Definition labels : list (list Z) := ztab 16 (fun r => ztab 16 (fun k => 16 * r + k)).
Fixpoint eqz (a b : list Z) : bool := match a, b with [], [] => true | x :: a, y :: b => (x =? y) && eqz a b | _, _ => false end.
Lemma eqz_ok : forall a b, eqz a b = true -> a = b.
Proof. induction a; intros [|]; cbn [eqz]; try discriminate; auto. intros H. apply andb_true_iff in H as (H & H'). f_equal; [lia|auto]. Qed.
Definition tr_check : bool :=
  match vexec labops transpose_n1_code [] [labels] with
  | Some [m] => (len m =? 16) && upto 16 (fun r => eqz (znth [] m r) (ztab 16 (fun k => 16 * k + r)))
  | _ => false end.
Lemma tr_checked : tr_check = true. Proof. vm_cast_no_check (eq_refl true). Qed.

(** ** Schoolbook multiplication *)
Fixpoint sprod (n : nat) (k : Z) : poly :=
  match n with
  | O => []
  | S n => let i := Z.of_nat n in padd (if (0 <=? k - i) && (k - i <? 16) then [(i + 1, k - i + 1, 1)] else []) (sprod n k)
  end.
(** The old contents of c_avx are variables of the first family. *)
Definition symc (i : Z) : ah := (16, [(i + 17, 0, 1)]).
Definition sb_new := vexec haops schoolbook_avx_new2_code [] [ztab 16 sym; ztab 16 symy; tops 32].
Definition sb_acc := vexec haops schoolbook_avx_new3_acc_code [] [ztab 16 sym; ztab 16 symy; ztab 32 symc].
Definition sb_is (acc : bool) (o : option (list (list ah))) : bool :=
  isn 3 o && (len (res o 2) =? 32) &&
  upto 32 (fun k => (fst (znth htop (res o 2) k) =? 16) &&
    peqb 16 (snd (znth htop (res o 2) k)) (if acc && (k <? 31) then padd [(k + 17, 0, 1)] (sprod 16 k) else sprod 16 k)).
Lemma sb_checked : sb_is false sb_new && sb_is true sb_acc = true. Proof. vm_cast_no_check (eq_refl true). Qed.

(** ** Interpolation: variable [16 * u + v + 1] is the low half of the product of the blocks [u] and [v], variable
    [256 + 16 * u + v + 1] the high half *)
Definition pprodt (off x c : Z) (q : poly) : poly := map (fun '(y, _, d) => (off + 16 * (x - 1) + (y - 1) + 1, 0, c * d)) q.
Fixpoint pprod (off : Z) (p q : poly) : poly := match p with [] => [] | (x, _, c) :: p => padd (pprodt off x c q) (pprod off p q) end.
Definition cin : list ah :=
  ztab 128 (fun n => let q := 16 * (n / 32) + n mod 16 in if q <? 63 then (16, pprod (256 * (n / 16 mod 2)) (evt q) (evt q)) else htop).
Definition glb : list Z := [43691; 36409; 61167; 45; 30; 0].
Definition kout := vexec haops KARA_interpol_code [] [cin; tops 8; tops 8; tops 8; tops 8; tops 8; tops 8; tops 8].
Definition icode (i : Z) : list vstmt := if i <? 4 then TC_interpol_code i ++ TC_interpol_then_code i else TC_interpol_code i ++ TC_interpol_else_code i.
Definition iin : list (list ah) := match kout with Some r => zskip 1 r ++ [tops 32; map hconst glb] | None => [] end.
Definition iout := vexecs haops (map icode (seqz 8 0)) iin.
Definition rout := vexecs haops (map TC_reduce_code (seqz 16 0)) [res iout 7; tops 16].
(** Sum of the products of blocks [u], [v] with [u + v = i], all of the half given by [off]. *)
Fixpoint diag (n : nat) (off i : Z) : poly :=
  match n with
  | O => []
  | S n => let u := Z.of_nat n in padd (if (0 <=? i - u) && (i - u <? 16) then [(off + 16 * u + (i - u) + 1, 0, 1)] else []) (diag n off i)
  end.
Definition wide (i : Z) : poly := padd (diag 16 0 i) (diag 16 256 (i - 1)).
Definition int_check : bool :=
  isn 8 kout && (len (res kout 0) =? 128) && isn 9 iout && (len (res iout 7) =? 32) && isn 2 rout && (len (res rout 1) =? 16) &&
  upto 16 (fun i => (13 <=? fst (znth htop (res rout 1) i)) && peqb 13 (snd (znth htop (res rout 1) i)) (padd (wide i) (pscale (-1) (wide (i + 16))))).
Lemma int_checked : int_check = true. Proof. vm_cast_no_check (eq_refl true). Qed.
