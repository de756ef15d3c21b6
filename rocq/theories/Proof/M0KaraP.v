(** The Karatsuba multiplication of the Cortex-M0 code, by symbolic execution: [prog] is the text of [unrolled_kara] as
    data, [sym] runs it on linear forms. *)
From Coq Require Import ZArith List Bool Lia FMapPositive.
From Verif Require Import Lib.Arr Lib.CInt Lib.CMon Spec.Ring Model.M0 Proof.Conv Proof.KaraP Proof.M4P.
Import ListNotations.
Local Open Scope Z_scope.

Inductive base := BA | BC | BD | BT.
Inductive lexp := LZero | LV (b : base) (p : Z) | LAdd (x y : lexp) | LSub (x y : lexp).
Inductive simple := SetD (p : Z) (e : lexp) | SetT (p : Z) (e : lexp).
Inductive opnd := Whole (b : base) | At (b : base) (p : Z).
Inductive stmt := S1 (s : simple) | Loop (hi : Z) (body : Z -> list simple) | Call (p : Z) (x y : opnd).

Section Exec.
  Variable inner : list Z -> list Z -> list Z -> M (list Z).
  Variables a c : list Z.
  Definition arr_of (tmp d : list Z) (b : base) : list Z := match b with BA => a | BC => c | BD => d | BT => tmp end.
  Fixpoint den (tmp d : list Z) (e : lexp) : cexp :=
    match e with
    | LZero => Cst I32 0
    | LV b p => Idx U16 (arr_of tmp d b) p
    | LAdd x y => Bin Add (den tmp d x) (den tmp d y)
    | LSub x y => Bin Sub (den tmp d x) (den tmp d y)
    end.
  Fixpoint exec1 (l : list simple) (tmp d : list Z) : M (list Z * list Z) :=
    match l with
    | [] => ret (tmp, d)
    | SetD p e :: r => bind (st U16 d p (den tmp d e)) (fun d => exec1 r tmp d)
    | SetT p e :: r => bind (st U16 tmp p (den tmp d e)) (fun tmp => exec1 r tmp d)
    end.
  Definition operand (tmp d : list Z) (o : opnd) (k : list Z -> M (list Z)) : M (list Z) :=
    match o with Whole b => k (arr_of tmp d b) | At b p => bind (ptr (arr_of tmp d b) p) k end.
  Fixpoint exec (l : list stmt) (tmp d : list Z) : M (list Z) :=
    match l with
    | [] => ret d
    | S1 (SetD p e) :: r => bind (st U16 d p (den tmp d e)) (fun d => exec r tmp d)
    | S1 (SetT p e) :: r => bind (st U16 tmp p (den tmp d e)) (fun tmp => exec r tmp d)
    | Loop hi body :: r => bind (for_ 0 hi (fun i '(tmp, d) => exec1 (body i) tmp d) (tmp, d)) (fun '(tmp, d) => exec r tmp d)
    | Call p x y :: r => operand tmp d x (fun x => operand tmp d y (fun y => bind (at_ d p (inner x y)) (fun d => exec r tmp d)))
    end.
End Exec.

Definition prog (K h : Z) : list stmt := let i := h - 1 in [
  Loop h (fun i => [SetD (K + i) (LAdd (LV BD i) (LV BD (K + i))); SetD (K + h + i) (LAdd (LAdd (LV BD (h + i)) (LV BD (K + h + i))) (LV BD (K + i))); SetD (3 * K - 1 + i) (LAdd (LV BA i) (LV BA (K + i))); SetD (3 * K + h - 1 + i) (LAdd (LV BA (h + i)) (LV BA (K + h + i))); SetT i (LAdd (LV BD (3 * K - 1 + i)) (LV BD (3 * K + h - 1 + i))); SetD (2 * K + i) LZero]);
  Loop h (fun i => [SetD (2 * K + h - 1 + i) (LAdd (LAdd (LAdd (LV BC i) (LV BC (h + i))) (LV BC (K + i))) (LV BC (K + h + i)))]);
  Call (K + h) (Whole BT) (At BD (2 * K + h - 1));
  Loop (h - 1) (fun i => [SetD (2 * K + h - 1 + i) (LAdd (LV BD (K + h + i)) (LV BD (2 * K + i))); SetD (K + h + i) LZero; SetT i (LAdd (LV BC i) (LV BC (K + i)))]);
  S1 (SetD (2 * K + h - 1 + i) (LV BD (K + h + i)));
  S1 (SetD (K + h + i) LZero);
  S1 (SetT i (LAdd (LV BC i) (LV BC (K + i))));
  Call K (Whole BT) (At BD (3 * K - 1));
  Loop (h - 1) (fun i => [SetD (2 * K + i) (LSub (LV BD (2 * K + i)) (LV BD (K + h + i))); SetD (K + h + i) (LSub (LV BD (2 * K + h - 1 + i)) (LV BD (K + i))); SetD (2 * K + h - 1 + i) LZero; SetT i (LAdd (LV BC (h + i)) (LV BC (K + h + i)))]);
  S1 (SetD (K + h + i) (LSub (LV BD (2 * K + h - 1 + i)) (LV BD (K + i))));
  S1 (SetD (2 * K + h - 1 + i) LZero);
  S1 (SetT i (LAdd (LV BC (h + i)) (LV BC (K + h + i))));
  Call (2 * K) (Whole BT) (At BD (h + 3 * K - 1));
  Loop (h - 1) (fun i => [SetD (h + i) (LAdd (LV BD i) (LV BD (h + i))); SetD (2 * K + i) (LSub (LV BD (2 * K + i)) (LV BD (2 * K + h + i))); SetD (3 * K - 1 + i) (LAdd (LV BD (2 * K + i)) (LV BD (K + i))); SetD (3 * K + h - 1 + i) (LSub (LV BD (K + h + i)) (LV BD (2 * K + i))); SetD (K + i) LZero]);
  S1 (SetD (h + i) (LAdd (LV BD i) (LV BD (h + i))));
  S1 (SetD (3 * K - 1 + i) (LAdd (LV BD (2 * K + i)) (LV BD (K + i))));
  S1 (SetD (3 * K + h - 1 + i) (LSub (LV BD (K + h + i)) (LV BD (2 * K + i))));
  Loop h (fun i => [SetD (K + h - 1 + i) (LAdd (LV BA i) (LV BA (h + i))); SetT i (LAdd (LV BC i) (LV BC (h + i)))]);
  Call h (Whole BT) (At BD (K + h - 1));
  Loop (h - 1) (fun i => [SetD (K + h - 1 + i) (LAdd (LV BD (h + i)) (LV BD (K + i))); SetD (h + i) LZero]);
  S1 (SetD (K + h - 1 + i) (LV BD (h + i)));
  S1 (SetD (h + i) LZero);
  Call 0 (Whole BA) (Whole BC);
  Loop (h - 1) (fun i => [SetD (K + i) (LSub (LV BD (K + i)) (LV BD (h + i))); SetD (h + i) (LSub (LV BD (K + h - 1 + i)) (LV BD i)); SetD (K + h - 1 + i) LZero]);
  S1 (SetD (h + i) (LSub (LV BD (K + h - 1 + i)) (LV BD i)));
  S1 (SetD (K + h - 1 + i) LZero);
  Call K (At BA h) (At BC h);
  Loop (h - 1) (fun i => [SetD (h + i) (LSub (LV BD (h + i)) (LV BD (K + i))); SetD (2 * K + i) (LAdd (LSub (LV BD (2 * K + i)) (LV BD (K + i))) (LV BD (K + h + i))); SetD (K + i) (LSub (LV BD (3 * K - 1 + i)) (LV BD i)); SetD (3 * K - 1 + i) LZero; SetD (2 * K + h + i) (LSub (LAdd (LV BD (2 * K + i)) (LV BD (2 * K + h + i))) (LV BD (K + h + i))); SetD (K + h + i) (LSub (LV BD (3 * K + h - 1 + i)) (LV BD (h + i))); SetT i (LAdd (LV BC (K + i)) (LV BC (K + h + i))); SetD (3 * K + h - 1 + i) (LAdd (LV BA (K + i)) (LV BA (K + h + i)))]);
  S1 (SetD (h + i) (LSub (LV BD (h + i)) (LV BD (K + i))));
  S1 (SetD (2 * K + i) (LSub (LV BD (2 * K + i)) (LV BD (K + i))));
  S1 (SetD (K + i) (LSub (LV BD (3 * K - 1 + i)) (LV BD i)));
  S1 (SetD (3 * K - 1 + i) LZero);
  S1 (SetD (K + h + i) (LSub (LV BD (3 * K + h - 1 + i)) (LV BD (h + i))));
  S1 (SetD (2 * K + h + i) (LAdd (LV BD (2 * K + i)) (LV BD (2 * K + h + i))));
  S1 (SetT i (LAdd (LV BC (K + i)) (LV BC (K + h + i))));
  S1 (SetD (3 * K + h - 1 + i) (LAdd (LV BA (K + i)) (LV BA (K + h + i))));
  Call (2 * K + h) (Whole BT) (At BD (3 * K + h - 1));
  Loop (h - 1) (fun i => [SetD (3 * K + h - 1 + i) (LAdd (LV BD (2 * K + h + i)) (LV BD (3 * K + i))); SetD (2 * K + h + i) LZero]);
  S1 (SetD (3 * K + h - 1 + i) (LV BD (2 * K + h + i)));
  S1 (SetD (2 * K + h + i) LZero);
  Call (2 * K) (At BA K) (At BC K);
  Loop (h - 1) (fun i => [SetD (3 * K + i) (LSub (LV BD (3 * K + i)) (LV BD (2 * K + h + i))); SetD (2 * K + h + i) (LSub (LV BD (3 * K + h - 1 + i)) (LV BD (2 * K + i))); SetD (3 * K + h - 1 + i) LZero]);
  S1 (SetD (2 * K + h + i) (LSub (LV BD (3 * K + h - 1 + i)) (LV BD (2 * K + i))));
  S1 (SetD (3 * K + h - 1 + i) LZero);
  Call (3 * K) (At BA (K + h)) (At BC (K + h));
  Loop (h - 1) (fun i => [SetD (2 * K + h + i) (LSub (LV BD (2 * K + h + i)) (LV BD (3 * K + i))); SetD (3 * K + i) (LSub (LV BD (3 * K + i)) (LV BD (3 * K + h + i))); SetD (K + i) (LSub (LV BD (K + i)) (LV BD (2 * K + i))); SetD (2 * K + i) (LSub (LV BD (2 * K + i)) (LV BD (3 * K + i))); SetD (K + h + i) (LSub (LV BD (K + h + i)) (LV BD (2 * K + h + i))); SetD (2 * K + h + i) (LSub (LV BD (2 * K + h + i)) (LV BD (3 * K + h + i)))]);
  S1 (SetD (2 * K + h + i) (LSub (LV BD (2 * K + h + i)) (LV BD (3 * K + i))));
  S1 (SetD (K + i) (LSub (LV BD (K + i)) (LV BD (2 * K + i))));
  S1 (SetD (2 * K + i) (LSub (LV BD (2 * K + i)) (LV BD (3 * K + i))));
  S1 (SetD (K + h + i) (LSub (LV BD (K + h + i)) (LV BD (2 * K + h + i))))].

Lemma prog_ok : forall K h inner tmp a c d, unrolled_kara K h inner tmp a c d = exec inner a c (prog K h) tmp d.
Proof. reflexivity. Qed.

(** ** Linear forms: lists of (key, coefficient), sorted by key *)
Definition lf := list (Z * Z).
Fixpoint ladd (x : lf) : lf -> lf :=
  match x with
  | [] => fun y => y
  | (k, u) :: x' => fix go (y : lf) : lf :=
      match y with
      | [] => x
      | (k', v) :: y' =>
          match k ?= k' with
          | Lt => (k, u) :: ladd x' y
          | Gt => (k', v) :: go y'
          | Eq => if u + v =? 0 then ladd x' y' else (k, u + v) :: ladd x' y'
          end
      end
  end.
Definition lneg (x : lf) : lf := map (fun '(k, u) => (k, - u)) x.
Fixpoint leval (env : Z -> Z) (x : lf) : Z := match x with [] => 0 | (k, u) :: r => u * env k + leval env r end.
Fixpoint leqb (x y : lf) : bool :=
  match x, y with
  | [], [] => true
  | (k, u) :: x, (k', v) :: y => (k =? k') && (u =? v) && leqb x y
  | _, _ => false
  end.

Lemma leval_add : forall env x y, leval env (ladd x y) = leval env x + leval env y.
Proof.
  intros env x. induction x as [|(k, u) x IH]; [reflexivity|]. intros y.
  induction y as [|(k', v) y IHy]; [cbn; lia|]. cbn [ladd] in *. destruct (k ?= k') eqn:E.
  - apply Z.compare_eq in E. subst k'. destruct (u + v =? 0) eqn:Z0; cbn [leval]; rewrite IH; [|lia].
    assert (v = - u) as -> by lia. lia.
  - cbn [leval]. rewrite IH. cbn [leval]. lia.
  - cbn [leval] in *. rewrite IHy. lia.
Qed.
Lemma leval_neg : forall env x, leval env (lneg x) = - leval env x.
Proof. induction x as [|(k, u) x IH]; cbn [lneg map leval]; [reflexivity|]. fold (lneg x). lia. Qed.
Lemma leqb_ok : forall x y, leqb x y = true -> x = y.
Proof.
  induction x as [|(k, u) x IH]; destruct y as [|(k', v) y]; cbn [leqb]; intros H; try discriminate; auto.
  apply andb_prop in H. destruct H as (H & H3). apply andb_prop in H. destruct H as (H1 & H2).
  apply IH in H3. apply Z.eqb_eq in H1, H2. congruence.
Qed.

(** ** Symbolic execution *)
Definition smap := PositiveMap.t lf.
Definition zfind (p : Z) (m : smap) : option lf := if p <? 0 then None else PositiveMap.find (Z.to_pos (p + 1)) m.
Definition zadd (p : Z) (v : lf) (m : smap) : smap := PositiveMap.add (Z.to_pos (p + 1)) v m.

Lemma zfind_add : forall p q v m, 0 <= p -> zfind q (zadd p v m) = if q =? p then Some v else zfind q m.
Proof.
  intros p q v m Hp. unfold zfind, zadd. destruct (q <? 0) eqn:E0; [destruct (q =? p) eqn:E; auto; lia|].
  destruct (q =? p) eqn:E.
  - assert (q = p) as -> by lia. apply PositiveMap.gss.
  - apply PositiveMap.gso. lia.
Qed.

Definition range (n : Z) : list Z := ztab n (fun i => i).
Lemma forallb_range : forall n f, forallb f (range n) = true -> forall i, 0 <= i < n -> f i = true.
Proof.
  intros n f H i Hi. rewrite forallb_forall in H. apply H. unfold range. 
unfold ztab. apply in_map_iff. exists (Z.to_nat i). split; [lia|]. apply in_seq. lia.
Qed.

Section Sym.
  Variable h : Z.
  Record sst := SS { s_t : smap; s_d : smap }.
  Definition keyP (u v k : Z) : Z := 4 * (16 * k + 4 * u + v) + 3.
  Definition cellv (S : sst) (b : base) (p : Z) : option lf :=
    match b with
    | BA => if (0 <=? p) && (p <? 4 * h) then Some [(4 * p, 1)] else None
    | BC => if (0 <=? p) && (p <? 4 * h) then Some [(4 * p + 1, 1)] else None
    | BD => zfind p (s_d S)
    | BT => zfind p (s_t S)
    end.
  Fixpoint seval (S : sst) (e : lexp) : option lf :=
    match e with
    | LZero => Some []
    | LV BT _ => None
    | LV b p => cellv S b p
    | LAdd x y => match seval S x, seval S y with Some x, Some y => Some (ladd x y) | _, _ => None end
    | LSub x y => match seval S x, seval S y with Some x, Some y => Some (ladd x (lneg y)) | _, _ => None end
    end.
  Definition sim1 (s : simple) (S : sst) : option sst :=
    match s with
    | SetD p e => if safe (den [] [] [] [] e) then
        match seval S e, zfind p (s_d S) with Some l, Some _ => Some (SS (s_t S) (zadd p l (s_d S))) | _, _ => None end else None
    | SetT p e => if safe (den [] [] [] [] e) && (0 <=? p) && (p <? h) then
        match seval S e with Some l => Some (SS (zadd p l (s_t S)) (s_d S)) | _ => None end else None
    end.
  Fixpoint sims (l : list simple) (G : sst) : option sst :=
    match l with [] => Some G | s :: r => match sim1 s G with Some G => sims r G | None => None end end.
  Fixpoint simfor (n : nat) (i : Z) (body : Z -> list simple) (G : sst) : option sst :=
    match n with O => Some G | S n => match sims (body i) G with Some G => simfor n (i + 1) body G | None => None end end.
  Definition sop (G : sst) (o : opnd) (i : Z) : option lf :=
    match o with Whole b => cellv G b i | At b p => if 0 <=? p then cellv G b (p + i) else None end.
  Definition form (tag : Z) (al : list (Z * Z)) (i : Z) : lf := map (fun '(u, w) => (4 * (h * u + i) + tag, w)) al.
  Definition uniform (tag : Z) (f : Z -> option lf) : option (list (Z * Z)) :=
    match f 0 with
    | Some l =>
        let al := map (fun '(k, w) => (k / 4 / h, w)) l in
        if forallb (fun i => match f i with Some li => leqb li (form tag al i) | None => false end) (range h)
          && forallb (fun '(u, w) => (0 <=? u) && (u <? 4) && (0 <=? w)) al && (fold_right (fun '(_, w) s => w + s) 0 al <=? 4) then Some al else None
    | None => None
    end.
  Definition terms (k : Z) (al be : list (Z * Z)) : lf :=
    fold_right (fun '(u, w) s => fold_right (fun '(v, w') s => ladd [(keyP u v k, w * w')] s) s be) [] al.
  Fixpoint addall (n : nat) (k : Z) (p : Z) (al be : list (Z * Z)) (m : smap) : option smap :=
    match n with
    | O => Some m
    | S n => match zfind (p + k) m with
        | Some l => addall n (k + 1) p al be (zadd (p + k) (ladd l (terms k al be)) m)
        | None => None
        end
    end.
  (* the product is added to [2h-1] places of d from [p]: no operand may overlap them *)
  Definition apart (p : Z) (o : opnd) : bool :=
    match o with At BD q => (q + h <=? p) || (p + (2 * h - 1) <=? q) | Whole BD => false | _ => true end.
  Definition simcall (p : Z) (x y : opnd) (G : sst) : option sst :=
    if (0 <=? p) && apart p x && apart p y && forallb (fun k => match zfind (p + (h + k)) (s_d G) with Some [] => true | _ => false end) (range (h - 1)) then
      match uniform 0 (sop G x), uniform 1 (sop G y) with
      | Some al, Some be => match addall (Z.to_nat (2 * h - 1)) 0 p al be (s_d G) with Some m => Some (SS (s_t G) m) | None => None end
      | _, _ =>
        match uniform 1 (sop G x), uniform 0 (sop G y) with
        | Some be, Some al => match addall (Z.to_nat (2 * h - 1)) 0 p al be (s_d G) with Some m => Some (SS (s_t G) m) | None => None end
        | _, _ => None
        end
      end
    else None.
  Fixpoint sim (l : list stmt) (G : sst) : option sst :=
    match l with
    | [] => Some G
    | S1 s :: r => match sim1 s G with Some G => sim r G | None => None end
    | Loop hi body :: r => if 0 <=? hi then match simfor (Z.to_nat hi) 0 body G with Some G => sim r G | None => None end else None
    | Call p x y :: r => match simcall p x y G with Some G => sim r G | None => None end
    end.
  Definition d_init (k : Z) : lf := if k <? 4 * h then [(4 * k + 2, 1)] else [].
  Definition S_init : sst :=
    SS (PositiveMap.empty lf) (fold_right (fun k m => zadd k (d_init k) m) (PositiveMap.empty lf) (range (8 * h - 1))).
  Definition prod_at (k : Z) (uv : Z * Z) : lf :=
    let '(u, v) := uv in let j := k - h * (u + v) in if (0 <=? j) && (j <? 2 * h - 1) then [(keyP u v j, 1)] else [].
  Definition pairs : list (Z * Z) := [(0, 0); (0, 1); (1, 0); (0, 2); (1, 1); (2, 0); (0, 3); (1, 2); (2, 1); (3, 0); (1, 3); (2, 2); (3, 1); (2, 3); (3, 2); (3, 3)].
  Definition expected (k : Z) : lf := ladd (d_init k) (fold_right (fun uv s => ladd (prod_at k uv) s) [] pairs).
  Definition check : bool :=
    match sim (prog (2 * h) h) S_init with
    | Some G => forallb (fun k => match zfind k (s_d G) with Some l => leqb l (expected k) | None => false end) (range (8 * h - 1))
    | None => false
    end.
End Sym.


(** ** Soundness *)
Lemma conv_comm_blk : forall n a b p q k, 0 <= n -> conv n (blk n p a) (blk n q b) k = conv n (blk n q b) (blk n p a) k.
Proof.
  intros n a b p q k Hn. destruct (Z_le_gt_dec 0 k) as [Hk|Hk]; cycle 1.
  { unfold conv. rewrite !zsum_zero; auto; intros i Hi; unfold blk at 2;
    (destruct ((0 <=? k - i) && _) eqn:E; [lia|]; lia). }
  assert (G : forall f g, supp n f -> supp n g -> conv n f g k = zsum (k + 1) (fun i => f i * g (k - i))).
  { intros f g Sf Sg. unfold conv. destruct (Z_le_gt_dec n (k + 1)).
    - replace (k + 1) with (n + (k + 1 - n)) by lia. rewrite zsum_app by lia. 
      rewrite (zsum_zero (k + 1 - n)); [lia|]. intros i Hi. rewrite Sf by lia. lia.
    - replace n with ((k + 1) + (n - (k + 1))) at 1 by lia. rewrite zsum_app by lia.
      rewrite (zsum_zero (n - (k + 1))); [lia|]. intros i Hi. rewrite Sg by lia. lia. }
  rewrite !G by apply blk_supp. rewrite zsum_rev by lia. apply zsum_ext. intros i Hi.
  replace (k + 1 - 1 - i) with (k - i) by lia. replace (k - (k - i)) with i by lia. lia.
Qed.

(** [f x y d] adds the product of the first [n] entries of [x] and [y] to [d], whose places [n..2n-2] must be zero; the
    entries of one of [x] and [y] are at most [X], those of the other at most [Y]. *)
Definition upto (n X : Z) (l : list Z) : Prop := forall i, 0 <= i < n -> get l i <= X.
Definition mulacc (n X Y : Z) (f : list Z -> list Z -> list Z -> M (list Z)) : Prop :=
  forall x y d, typed U16 x -> typed U16 y -> typed U16 d -> n <= len x -> n <= len y -> 2 * n - 1 <= len d ->
  (upto n X x /\ upto n Y y \/ upto n Y x /\ upto n X y) ->
  (forall k, n <= k < 2 * n - 1 -> get d k = 0) ->
  wp (f x y d) (fun r => len r = len d /\ typed U16 r /\
    forall k, 0 <= k < len d -> eq16 (get r k) (get d k + conv n (blk n 0 (get x)) (blk n 0 (get y)) k)).

Lemma eq16_u16 : forall x y, u16 x -> u16 y -> eq16 x y -> x = y.
Proof. unfold u16, eq16. intros x y Hx Hy (q & E). assert (q = 0) by lia. lia. Qed.

Lemma typed_u16 : forall l k, typed U16 l -> u16 (get l k).
Proof.
  intros l k T. unfold get, znth. destruct (k <? 0); [cbn; unfold u16; lia|].
  destruct (nth_in_or_default (Z.to_nat k) l 0) as [I | ->]; [|unfold u16; lia].
  unfold typed in T. rewrite Forall_forall in T. apply T in I. exact I.
Qed.

Lemma some_inj : forall A (x y : A), Some x = Some y -> x = y.
Proof. congruence. Qed.

Section Sound.
  Variable h : Z.
  Hypothesis Hh : 1 <= h.
  Variable inner : list Z -> list Z -> list Z -> M (list Z).
  Variables X Y : Z.
  Hypothesis Hinner : mulacc h (4 * X) (4 * Y) inner.
  Variables a c d0 : list Z.
  Hypotheses (Ba : upto (4 * h) X a) (Bc : upto (4 * h) Y c).
  Hypotheses (Ta : typed U16 a) (Tc : typed U16 c) (La : 4 * h <= len a) (Lc : 4 * h <= len c).

  Definition env (n : Z) : Z :=
    let q := n / 4 in
    if n mod 4 =? 0 then get a q else if n mod 4 =? 1 then get c q else if n mod 4 =? 2 then get d0 q
    else conv h (blk h ((q / 4) mod 4) (get a)) (blk h (q mod 4) (get c)) (q / 16).

  Lemma env_tag : forall p t, 0 <= t < 4 -> (4 * p + t) / 4 = p /\ (4 * p + t) mod 4 = t.
  Proof. intros. split; dlia. Qed.
  Lemma env_A : forall p, env (4 * p + 0) = get a p.
  Proof. intros. unfold env. destruct (env_tag p 0 ltac:(lia)) as (-> & ->). reflexivity. Qed.
  Lemma env_C : forall p, env (4 * p + 1) = get c p.
  Proof. intros. unfold env. destruct (env_tag p 1 ltac:(lia)) as (-> & ->). reflexivity. Qed.
  Lemma env_D : forall p, env (4 * p + 2) = get d0 p.
  Proof. intros. unfold env. destruct (env_tag p 2 ltac:(lia)) as (-> & ->). reflexivity. Qed.
  Definition PP (u v k : Z) : Z := conv h (blk h u (get a)) (blk h v (get c)) k.
  Lemma env_P : forall u v k, 0 <= u < 4 -> 0 <= v < 4 -> env (keyP u v k) = PP u v k.
  Proof.
    intros. unfold env, keyP. destruct (env_tag (16 * k + 4 * u + v) 3 ltac:(lia)) as (-> & ->). cbn [Z.eqb Pos.eqb].
    replace (((16 * k + 4 * u + v) / 4) mod 4) with u by dlia. replace ((16 * k + 4 * u + v) mod 4) with v by dlia.
    replace ((16 * k + 4 * u + v) / 16) with k by dlia. reflexivity.
  Qed.

  Definition R (G : sst) (tmp d : list Z) : Prop :=
    len tmp = h /\ len d = len d0 /\ typed U16 d /\
    (forall p l, zfind p (s_t G) = Some l -> 0 <= p < h /\ u16 (get tmp p) /\ eq16 (get tmp p) (leval env l)) /\
    (forall p l, zfind p (s_d G) = Some l -> 0 <= p < 8 * h - 1 /\ eq16 (get d p) (leval env l)) /\
    (forall p, 8 * h - 1 <= p < len d0 -> get d p = get d0 p).
  Hypothesis Ld : 8 * h - 1 <= len d0.

  Lemma cellv_ok : forall G tmp d b p l, R G tmp d -> cellv h G b p = Some l ->
    0 <= p < len (arr_of a c tmp d b) /\ u16 (get (arr_of a c tmp d b) p) /\ eq16 (get (arr_of a c tmp d b) p) (leval env l).
  Proof.
    intros G tmp d b p l (R1 & R2 & R3 & R4 & R5 & R6) E. destruct b; cbn [cellv arr_of] in *.
    - destruct (_ && _) eqn:B in E; [|discriminate]. apply some_inj in E. subst l. cbn [leval]. replace (4 * p) with (4 * p + 0) by lia.
      rewrite env_A. split; [lia|]. split; [now apply typed_u16|]. apply eqm_eq. lia.
    - destruct (_ && _) eqn:B in E; [|discriminate]. apply some_inj in E. subst l. cbn [leval].
      rewrite env_C. split; [lia|]. split; [now apply typed_u16|]. apply eqm_eq. lia.
    - apply R5 in E. destruct E. split; [lia|]. split; [now apply typed_u16|]. auto.
    - apply R4 in E. destruct E as (E1 & E2 & E3). rewrite R1. auto.
  Qed.

  Lemma den_ok : forall G tmp d e l, R G tmp d -> seval h G e = Some l ->
    lok (den a c tmp d e) /\ (ty (den a c tmp d e) = I32 \/ ty (den a c tmp d e) = U16) /\ eq16 (val (den a c tmp d e)) (leval env l).
  Proof.
    intros G tmp d e l HR. pose proof HR as (R1 & R2 & R3 & R4 & R5 & R6). revert l.
    assert (HB : forall x y l l', (ty x = I32 \/ ty x = U16) -> (ty y = I32 \/ ty y = U16) -> eq16 (val x) l -> eq16 (val y) l' ->
      eq16 (val (Bin Add x y)) (l + l') /\ eq16 (val (Bin Sub x y)) (l - l')).
    { intros x y l l' Hx Hy E1 E2. cbn [val val_bin].
      destruct Hx as [-> | ->], Hy as [-> | ->]; cbn [promote common]; unfold uw, cv; cbn [signed subr];
        (split; [apply eqm_add|apply eqm_sub]; auto). }
    induction e as [|b p|x IHx y IHy|x IHx y IHy]; intros l E; cbn [seval den] in *.
    - injection E as <-. split; [cbn; lia|]. split; [auto|]. apply eqm_refl.
    - assert (Eb : cellv h G b p = Some l) by (destruct b; (exact E || discriminate E)).
      pose proof (cellv_ok G tmp d b p l HR Eb) as (B1 & B2 & B3). cbn [lok ty val]. split; [|auto].
      assert (TT : typed U16 (arr_of a c tmp d b)) by (destruct b; cbn [arr_of]; auto; discriminate E). auto.
    - destruct (seval h G x) as [lx|]; [|discriminate]. destruct (seval h G y) as [ly|]; [|discriminate]. injection E as <-.
      destruct (IHx lx eq_refl) as (X1 & X2 & X3). destruct (IHy ly eq_refl) as (Y1 & Y2 & Y3). rewrite leval_add.
      cbn [lok ty]. split; [auto|]. split; [|now apply HB]. left. destruct X2 as [-> | ->], Y2 as [-> | ->]; reflexivity.
    - destruct (seval h G x) as [lx|]; [|discriminate]. destruct (seval h G y) as [ly|]; [|discriminate]. injection E as <-.
      destruct (IHx lx eq_refl) as (X1 & X2 & X3). destruct (IHy ly eq_refl) as (Y1 & Y2 & Y3). rewrite leval_add, leval_neg.
      cbn [lok ty]. split; [auto|]. split; [left; destruct X2 as [-> | ->], Y2 as [-> | ->]; reflexivity|]. 
      replace (leval env lx + - leval env ly) with (leval env lx - leval env ly) by lia. now apply HB.
  Qed.

  Lemma an_den : forall tmp d e, an (den a c tmp d e) = an (den [] [] [] [] e) /\ ty (den a c tmp d e) = ty (den [] [] [] [] e).
  Proof.
    intros tmp d e. induction e as [|b p|x [IHx Tx] y [IHy Ty]|x [IHx Tx] y [IHy Ty]]; cbn [den an ty]; auto;
      rewrite IHx, IHy, Tx, Ty; auto.
  Qed.
  Lemma safe_den : forall tmp d e, safe (den [] [] [] [] e) = true -> safe (den a c tmp d e) = true.
  Proof. intros tmp d e. unfold safe. now rewrite (proj1 (an_den tmp d e)). Qed.

  Lemma setD_ok : forall G G' tmp d p e, R G tmp d -> sim1 h (SetD p e) G = Some G' ->
    wp (st U16 d p (den a c tmp d e)) (fun d => R G' tmp d).
  Proof.
    intros G G' tmp d p e HR E. cbn [sim1] in E. destruct (safe _) eqn:S1; [|discriminate].
    destruct (seval h G e) as [l|] eqn:El; [|discriminate]. destruct (zfind p (s_d G)) as [l0|] eqn:E0; [|discriminate].
    injection E as <-. pose proof (den_ok G tmp d e l HR El) as (D1 & _ & D3).
    destruct HR as (R1 & R2 & R3 & R4 & R5 & R6). pose proof (R5 p l0 E0) as (P1 & _).
    apply wp_st; [now apply safe_den|auto|lia|]. cbn [s_t s_d]. split; [auto|]. cbn [s_t s_d]. rewrite len_upd.
    split; [auto|]. split; [apply typed_upd; auto; apply wrap_range|]. split; [auto|]. split.
    - intros q lq. rewrite zfind_add by lia. unfold get. rewrite znth_upd by lia. destruct (q =? p) eqn:Eq; [|apply R5].
      intros [= <-]. split; [lia|]. eapply eqm_trans; [apply wrap16|]. auto.
    - intros q Hq. unfold get. rewrite znth_upd by lia. destruct (q =? p) eqn:Eq; [lia|]. now apply R6.
  Qed.
  Lemma setT_ok : forall G G' tmp d p e, R G tmp d -> sim1 h (SetT p e) G = Some G' ->
    wp (st U16 tmp p (den a c tmp d e)) (fun tmp => R G' tmp d).
  Proof.
    intros G G' tmp d p e HR E. cbn [sim1] in E. destruct (safe _ && _ && _) eqn:S1; [|discriminate].
    apply andb_prop in S1. destruct S1 as (S1 & S3). apply andb_prop in S1. destruct S1 as (S1 & S2).
    destruct (seval h G e) as [l|] eqn:El; [|discriminate].
    injection E as <-. pose proof (den_ok G tmp d e l HR El) as (D1 & _ & D3).
    destruct HR as (R1 & R2 & R3 & R4 & R5 & R6).
    apply wp_st; [now apply safe_den|auto|lia|]. split; [now rewrite len_upd|]. cbn [s_t s_d].
    split; [auto|]. split; [auto|]. split; [|auto].
    intros q lq. rewrite zfind_add by lia. unfold get. rewrite znth_upd by lia. destruct (q =? p) eqn:Eq; [|apply R4].
    intros [= <-]. split; [lia|]. split; [exact (wrap_range U16 _)|]. eapply eqm_trans; [apply wrap16|]. auto.
  Qed.

  Lemma sims_ok : forall l G G' tmp d, R G tmp d -> sims h l G = Some G' ->
    wp (exec1 a c l tmp d) (fun '(tmp, d) => R G' tmp d).
  Proof.
    induction l as [|s l IH]; intros G G' tmp d HR E; cbn [sims exec1] in *.
    - injection E as <-. now apply wp_ret.
    - destruct (sim1 h s G) as [G1|] eqn:E1; [|discriminate]. destruct s.
      + apply wp_bind. eapply wp_mono; [eapply setD_ok; eauto|]. cbn beta. intros. eapply IH; eauto.
      + apply wp_bind. eapply wp_mono; [eapply setT_ok; eauto|]. cbn beta. intros. eapply IH; eauto.
  Qed.

  Lemma simfor_ok : forall hi body G G' tmp d, 0 <= hi -> R G tmp d -> simfor h (Z.to_nat hi) 0 body G = Some G' ->
    wp (for_ 0 hi (fun i '(tmp, d) => exec1 a c (body i) tmp d) (tmp, d)) (fun '(tmp, d) => R G' tmp d).
  Proof.
    intros hi body G G' tmp d Hhi HR E.
    apply wp_for with (I := fun i '(tmp, d) => exists G1, R G1 tmp d /\ simfor h (Z.to_nat (hi - i)) i body G1 = Some G').
    - lia.
    - exists G. rewrite Z.sub_0_r. auto.
    - intros j (tmp1, d1) Hj (G1 & HR1 & E1). replace (Z.to_nat (hi - j)) with (S (Z.to_nat (hi - (j + 1)))) in E1 by lia.
      cbn [simfor] in E1. destruct (sims h (body j) G1) as [G2|] eqn:E2; [|discriminate].
      eapply wp_mono; [eapply sims_ok; eauto|]. intros (tmp2, d2) HR2. exists G2. auto.
    - intros (tmp1, d1) (G1 & HR1 & E1). rewrite Z.sub_diag in E1. cbn in E1. injection E1 as <-. auto.
  Qed.

  (* a uniform operand is a fixed linear combination of the blocks of [a] (or of [c]) *)
  Definition comb (f : list Z) (al : list (Z * Z)) (i : Z) : Z := fold_right (fun '(u, w) s => w * get f (h * u + i) + s) 0 al.
  Definition src (tag : Z) : list Z := if tag =? 0 then a else c.
  Lemma leval_form : forall tag al i, tag = 0 \/ tag = 1 -> leval env (form h tag al i) = comb (src tag) al i.
  Proof.
    intros tag al i Ht. induction al as [|(u, w) al IH]; [reflexivity|]. unfold form, comb in *. cbn [map leval fold_right].
    rewrite IH. f_equal. f_equal. destruct Ht as [-> | ->]; [apply env_A|apply env_C].
  Qed.
  Lemma comb_bound : forall tag al i, tag = 0 \/ tag = 1 -> 0 <= i < h -> Forall (fun '(u, w) => 0 <= u < 4 /\ 0 <= w) al ->
    0 <= comb (src tag) al i <= fold_right (fun '(_, w) s => w + s) 0 al * if tag =? 0 then X else Y.
  Proof.
    intros tag al i Ht Hi F.
    assert (S : forall u, 0 <= u < 4 -> 0 <= get (src tag) (h * u + i) <= if tag =? 0 then X else Y).
    { intros u Hu. assert (0 <= h * u + i < 4 * h) by nia. unfold src. destruct Ht as [-> | ->]; cbn [Z.eqb].
      - split; [apply (typed_u16 a _ Ta)|now apply Ba].
      - split; [apply (typed_u16 c _ Tc)|now apply Bc]. }
    unfold comb. induction F as [|(u, w) al (Hu & Hw) F IH]; cbn [fold_right]; [lia|]. specialize (S u Hu). nia.
  Qed.
  Lemma uniform_ok : forall G tmp d o tag al, tag = 0 \/ tag = 1 -> R G tmp d -> uniform h tag (sop h G o) = Some al ->
    (Forall (fun '(u, _) => 0 <= u < 4) al) /\
    exists x, (forall (k : list Z -> M (list Z)) Q, wp (k x) Q -> wp (operand a c tmp d o k) Q) /\
      typed U16 x /\ h <= len x /\ upto h (4 * if tag =? 0 then X else Y) x /\
      forall i, 0 <= i < h -> eq16 (get x i) (comb (src tag) al i).
  Proof.
    intros G tmp d o tag al Ht HR E. unfold uniform in E. destruct (sop h G o 0) as [l|] eqn:E0; [|discriminate].
    set (al' := map _ l) in E. destruct (_ && _) eqn:B in E; [|discriminate]. injection E as <-.
    apply andb_prop in B. destruct B as (B & B3). apply andb_prop in B. destruct B as (B1 & B2).
    assert (FA : Forall (fun '(u, w) => 0 <= u < 4 /\ 0 <= w) al').
    { rewrite forallb_forall in B2. apply Forall_forall. intros (u, w) Hu. specialize (B2 _ Hu). cbn beta iota in B2. lia. }
    split; [eapply Forall_impl; [|exact FA]; intros (u, w); tauto|].
    assert (UP : forall x, typed U16 x -> (forall i, 0 <= i < h -> eq16 (get x i) (comb (src tag) al' i)) ->
      upto h (4 * if tag =? 0 then X else Y) x).
    { intros x Tx Vx i Hi. destruct (comb_bound tag al' i Ht Hi FA) as (C0 & C1). set (W := if tag =? 0 then X else Y) in *.
      assert (W0 : 0 <= W). { subst W. destruct Ht as [-> | ->]; cbn [Z.eqb].
        - pose proof (Ba 0 ltac:(lia)). pose proof (typed_u16 a 0 Ta). unfold u16 in *. lia.
        - pose proof (Bc 0 ltac:(lia)). pose proof (typed_u16 c 0 Tc). unfold u16 in *. lia. }
      assert (C2 : comb (src tag) al' i <= 4 * W) by nia.
      pose proof (typed_u16 x i Tx) as Ux. destruct (Z_le_gt_dec (4 * W) 65535); [|unfold u16 in Ux; lia].
      rewrite (eq16_u16 (get x i) (comb (src tag) al' i)); auto. unfold u16. lia. }
    clear FA B3.
    assert (F : forall i, 0 <= i < h -> sop h G o i = Some (form h tag al' i)).
    { intros i Hi. pose proof (forallb_range h _ B1 i Hi) as Bi. cbn beta in Bi. destruct (sop h G o i); [|discriminate].
      apply leqb_ok in Bi. now rewrite Bi. }
    clearbody al'. clear B1 B2 E0 l.
    assert (HT : forall p, (forall i, 0 <= i < h -> cellv h G BT (p + i) = Some (form h tag al' i)) -> p = 0 /\ typed U16 tmp).
    { intros p HF. pose proof (cellv_ok G tmp d BT _ _ HR (HF 0 ltac:(lia))) as (P1 & _).
      pose proof (cellv_ok G tmp d BT _ _ HR (HF (h - 1) ltac:(lia))) as (P2 & _). cbn [arr_of] in P1, P2.
      destruct HR as (R1 & _ & _ & R4 & _). rewrite R1 in *. assert (p = 0) by lia. subst p. split; auto.
      apply (Forall_znth_iff) with (d := 0). intros i Hi. rewrite R1 in Hi. specialize (HF i Hi). cbn [cellv] in HF.
      apply R4 in HF. exact (proj1 (proj2 HF)). }
    destruct o as [b|b p]; cbn [sop operand] in *.
    - exists (arr_of a c tmp d b). split; [auto|].
      split; [|split].
      + destruct b; cbn [arr_of]; auto; [apply HR|]. apply (HT 0). intros i Hi. exact (F i Hi).
      + pose proof (cellv_ok G tmp d b _ _ HR (F (h - 1) ltac:(lia))). lia.
      + assert (V : forall i, 0 <= i < h -> eq16 (get (arr_of a c tmp d b) i) (comb (src tag) al' i))
          by (intros i Hi; rewrite <- leval_form by auto; apply (cellv_ok G tmp d b _ _ HR (F i Hi))).
        split; [|exact V]. apply UP; [|exact V]. destruct b; cbn [arr_of]; auto; [apply HR|]. apply (HT 0). intros i Hi. exact (F i Hi).
    - destruct (0 <=? p) eqn:P0; [|specialize (F 0 ltac:(lia)); discriminate].
      pose proof (cellv_ok G tmp d b _ _ HR (F (h - 1) ltac:(lia))) as (L1 & _).
      exists (zskip p (arr_of a c tmp d b)). split; [|split; [|split]].
      + intros k Q W. apply wp_bind, wp_ptr; [lia|auto].
      + apply Forall_zskip. destruct b; cbn [arr_of]; auto; [apply HR|]. now apply (HT p).
      + rewrite len_zskip by lia. lia.
      + assert (V : forall i, 0 <= i < h -> eq16 (get (zskip p (arr_of a c tmp d b)) i) (comb (src tag) al' i))
          by (intros i Hi; rewrite <- leval_form by auto; unfold get; rewrite znth_zskip by lia; apply (cellv_ok G tmp d b _ _ HR (F i Hi))).
        split; [|exact V]. apply UP; [|exact V]. apply Forall_zskip. destruct b; cbn [arr_of]; auto; [apply HR|]. now apply (HT p).
  Qed.

  Lemma blk_shift : forall f u i, 0 <= i < h -> blk h 0 (fun i => get f (h * u + i)) i = blk h u (get f) i.
  Proof. intros. rewrite !blk_in by auto. f_equal. lia. Qed.

  Lemma conv_combl : forall f al b k, conv h (blk h 0 (comb f al)) b k
    = fold_right (fun '(u, w) s => w * conv h (blk h u (get f)) b k + s) 0 al.
  Proof.
    intros f al b k. induction al as [|(u, w) al IH]; cbn [fold_right].
    - unfold conv. apply zsum_zero. intros i Hi. rewrite blk_in by lia. reflexivity.
    - rewrite <- IH, <- conv_scalel, <- conv_addl. apply conv_ext; auto. intros i Hi. rewrite !blk_in by lia. unfold comb. cbn [fold_right].
      rewrite Z.mul_0_r, Z.add_0_l. reflexivity.
  Qed.
  Lemma conv_combr : forall f be b k, conv h b (blk h 0 (comb f be)) k
    = fold_right (fun '(v, w) s => w * conv h b (blk h v (get f)) k + s) 0 be.
  Proof.
    intros f al b k. induction al as [|(u, w) al IH]; cbn [fold_right].
    - unfold conv. apply zsum_zero. intros i Hi. unfold blk at 1. destruct (_ && _); cbn [comb fold_right]; lia.
    - rewrite <- IH, <- conv_scaler, <- conv_addr. apply conv_ext; auto. intros i. unfold blk. destruct (_ && _); [|lia].
      unfold comb. cbn [fold_right]. rewrite Z.mul_0_r, Z.add_0_l. reflexivity.
  Qed.

  Lemma terms_ok : forall k al be, Forall (fun '(u, _) => 0 <= u < 4) al -> Forall (fun '(u, _) => 0 <= u < 4) be ->
    leval env (terms k al be) = conv h (blk h 0 (comb a al)) (blk h 0 (comb c be)) k.
  Proof.
    intros k al be Ha Hb. rewrite conv_combl. induction Ha as [|(u, w) al Hu Ha IH]; [reflexivity|].
    unfold terms in *. cbn [fold_right]. rewrite <- IH. rewrite conv_combr. clear IH. match goal with |- context [fold_right ?f ?n al] => generalize (fold_right f n al) end. intros t.
    induction Hb as [|(v, w') be Hv Hb IH]; cbn [fold_right]; [lia|]. rewrite leval_add. cbn [leval].
    rewrite IH, env_P by auto. unfold PP. lia.
  Qed.

  Lemma addall_ok : forall n k p al be m m', 0 <= k -> 0 <= p -> addall n k p al be m = Some m' ->
    forall q, zfind q m' = if (p + k <=? q) && (q <? p + k + Z.of_nat n)
      then match zfind q m with Some l => Some (ladd l (terms (q - p) al be)) | None => None end else zfind q m.
  Proof.
    induction n as [|n IH]; intros k p al be m m' Hk Hp E q; cbn [addall] in E.
    - injection E as <-. destruct (_ && _) eqn:B; [lia|auto].
    - destruct (zfind (p + k) m) as [l|] eqn:El; [|discriminate]. rewrite (IH (k + 1) p al be _ m' ltac:(lia) Hp E q).
      rewrite zfind_add by lia. destruct (q =? p + k) eqn:Eq.
      + assert (q = p + k) as -> by lia. rewrite El. destruct (_ && _) eqn:B1; [lia|].
        destruct ((p + k <=? p + k) && _) eqn:B2; [|lia]. do 3 f_equal. lia.
      + destruct ((p + (k + 1) <=? q) && _) eqn:B1; destruct ((p + k <=? q) && _) eqn:B2; auto; lia.
  Qed.
  Lemma addall_some : forall n k p al be m m', 0 <= k -> 0 <= p -> addall n k p al be m = Some m' ->
    forall q, p + k <= q < p + k + Z.of_nat n -> zfind q m <> None.
  Proof.
    induction n as [|n IH]; intros k p al be m m' Hk Hp E q Hq; cbn [addall] in E; [lia|].
    destruct (zfind (p + k) m) as [l|] eqn:El; [|discriminate]. destruct (q =? p + k) eqn:Eq.
    - assert (q = p + k) as -> by lia. congruence.
    - specialize (IH (k + 1) p al be _ m' ltac:(lia) Hp E q ltac:(lia)). rewrite zfind_add in IH by lia. now rewrite Eq in IH.
  Qed.

  Lemma call_core : forall G tmp d p x y al be m (f : Z -> Z), R G tmp d -> 0 <= p ->
    (forall k, h <= k < 2 * h - 1 -> zfind (p + k) (s_d G) = Some []) ->
    typed U16 x -> typed U16 y -> h <= len x -> h <= len y ->
    (upto h (4 * X) x /\ upto h (4 * Y) y \/ upto h (4 * Y) x /\ upto h (4 * X) y) ->
    (forall k, eq16 (conv h (blk h 0 (get x)) (blk h 0 (get y)) k) (leval env (terms k al be))) ->
    addall (Z.to_nat (2 * h - 1)) 0 p al be (s_d G) = Some m ->
    wp (at_ d p (inner x y)) (fun d => R (SS (s_t G) m) tmp d).
  Proof.
    intros G tmp d p x y al be m f (R1 & R2 & R3 & R4 & R5 & R6) Hp Hz Tx Ty Lx Ly Hb Hc Em.
    pose proof (addall_some _ 0 _ _ _ _ _ ltac:(lia) Hp Em) as Hs.
    pose proof (addall_ok _ 0 _ _ _ _ _ ltac:(lia) Hp Em) as Hm. clear Em.
    assert (Hend : p + (2 * h - 1) <= 8 * h - 1).
    { specialize (Hs (p + (2 * h - 2)) ltac:(lia)). destruct (zfind _ _) as [l|] eqn:El; [|congruence]. apply R5 in El. lia. }
    apply wp_at; [lia|]. eapply wp_mono; [apply Hinner; auto|].
    - now apply Forall_zskip.
    - rewrite len_zskip by lia. lia.
    - intros k Hk. unfold get. rewrite znth_zskip by lia. specialize (Hz k Hk). apply R5 in Hz. destruct Hz as (_ & Hz).
      apply eq16_u16; [now apply typed_u16|unfold u16; lia|exact Hz].
    - cbn beta. intros r (L & T & V). rewrite len_zskip in L, V by lia.
      assert (Tr : typed U16 (zfirst p d ++ r)) by (apply Forall_app; split; [now apply Forall_zfirst|auto]).
      assert (Lr : len (zfirst p d ++ r) = len d0) by (rewrite len_app, len_zfirst by lia; lia).
      assert (Vr : forall q, p <= q < len d0 -> eq16 (get (zfirst p d ++ r) q) (get d q + leval env (terms (q - p) al be))).
      { intros q Hq. replace (get (zfirst p d ++ r) q) with (get r (q - p)).
        2:{ unfold get. rewrite znth_app2 by (rewrite len_zfirst by lia; lia). rewrite len_zfirst by lia. reflexivity. }
        eapply eqm_trans; [apply V; lia|]. apply eqm_add; [|apply Hc]. apply eqm_eq. unfold get. rewrite znth_zskip by lia. f_equal. lia. }
      assert (Vl : forall q, q < p -> get (zfirst p d ++ r) q = get d q).
      { intros q Hq. destruct (Z_lt_ge_dec q 0).
        - unfold get, znth. destruct (q <? 0) eqn:E; [auto|lia].
        - unfold get. rewrite znth_app1 by (rewrite len_zfirst by lia; lia). now rewrite znth_zfirst by lia. }
      assert (Vh : forall q, p + (2 * h - 1) <= q < len d0 -> get (zfirst p d ++ r) q = get d q).
      { intros q Hq. apply eq16_u16; [now apply typed_u16|now apply typed_u16|]. eapply eqm_trans; [apply Vr; lia|].
        eapply eqm_trans; [apply eqm_add; [apply eqm_refl|apply eqm_sym, Hc]|]. apply eqm_eq.
        rewrite conv_out by (try apply blk_supp; lia). lia. }
      split; [auto|]. split; [auto|]. split; [auto|]. cbn [s_t s_d]. split; [auto|]. split.
      + intros q l. rewrite Hm. rewrite Z.add_0_r, Z2Nat.id by lia. destruct (_ && _) eqn:B.
        * destruct (zfind q (s_d G)) as [l0|] eqn:E0; [|discriminate]. intros [= <-]. apply R5 in E0. destruct E0 as (B0 & E0).
          split; [auto|]. eapply eqm_trans; [apply Vr; lia|]. rewrite leval_add. apply eqm_add; [auto|apply eqm_refl].
        * intros El. apply R5 in El. destruct El as (B0 & El). split; [auto|].
          destruct (Z_lt_ge_dec q p); [rewrite Vl by lia|rewrite Vh by lia]; auto.
      + intros q Hq. rewrite Vh by lia. now apply R6.
  Qed.

  Lemma conv_src : forall x y t1 t2 al be k, (forall i, 0 <= i < h -> eq16 (get x i) (comb (src t1) al i)) ->
    (forall i, 0 <= i < h -> eq16 (get y i) (comb (src t2) be i)) ->
    eq16 (conv h (blk h 0 (get x)) (blk h 0 (get y)) k) (conv h (blk h 0 (comb (src t1) al)) (blk h 0 (comb (src t2) be)) k).
  Proof.
    intros. apply conv_eqm; try apply blk_supp; intros i Hi; rewrite !blk_in by lia; rewrite Z.mul_0_r, Z.add_0_l; auto.
  Qed.

  Lemma simcall_ok : forall G G' tmp d p x y (k : list Z -> M (list Z)) Q, R G tmp d -> simcall h p x y G = Some G' ->
    (forall d, R G' tmp d -> wp (k d) Q) ->
    wp (operand a c tmp d x (fun x => operand a c tmp d y (fun y => bind (at_ d p (inner x y)) k))) Q.
  Proof.
    intros G G' tmp d p x y k Q HR E HQ. unfold simcall in E. destruct (_ && _) eqn:B in E; [|discriminate].
    apply andb_prop in B. destruct B as (B & Bz). apply andb_prop in B. destruct B as (B & _). apply andb_prop in B. destruct B as (B & _).
    assert (Hz : forall k, h <= k < 2 * h - 1 -> zfind (p + k) (s_d G) = Some []).
    { intros j Hj. pose proof (forallb_range _ _ Bz (j - h) ltac:(lia)) as Bj. cbn beta in Bj.
      replace (p + (h + (j - h))) with (p + j) in Bj by lia. destruct (zfind (p + j) (s_d G)) as [[|]|]; auto; discriminate. }
    clear Bz.
    assert (K1 : forall al be, uniform h 0 (sop h G x) = Some al -> uniform h 1 (sop h G y) = Some be ->
      match addall (Z.to_nat (2 * h - 1)) 0 p al be (s_d G) with Some m => Some (SS (s_t G) m) | None => None end = Some G' ->
      wp (operand a c tmp d x (fun x => operand a c tmp d y (fun y => bind (at_ d p (inner x y)) k))) Q).
    { intros al be Ex Ey E1. destruct (addall _ _ _ _ _ _) as [m|] eqn:Em; [|discriminate]. injection E1 as <-.
      pose proof (uniform_ok _ _ _ _ _ _ (or_introl eq_refl) HR Ex) as (Fa & x' & X1 & X2 & X3 & X5 & X4).
      pose proof (uniform_ok _ _ _ _ _ _ (or_intror eq_refl) HR Ey) as (Fb & y' & Y1 & Y2 & Y3 & Y5 & Y4).
      apply X1, Y1, wp_bind. eapply wp_mono; [|exact HQ].
      apply call_core with (al := al) (be := be); auto; [lia|]. intros j. rewrite terms_ok by auto. exact (conv_src _ _ 0 1 _ _ j X4 Y4). }
    assert (K2 : match uniform h 1 (sop h G x), uniform h 0 (sop h G y) with
        | Some be, Some al => match addall (Z.to_nat (2 * h - 1)) 0 p al be (s_d G) with Some m => Some (SS (s_t G) m) | None => None end
        | _, _ => None end = Some G' ->
      wp (operand a c tmp d x (fun x => operand a c tmp d y (fun y => bind (at_ d p (inner x y)) k))) Q).
    { intros E1. destruct (uniform h 1 (sop h G x)) as [be|] eqn:Ex; [|discriminate].
      destruct (uniform h 0 (sop h G y)) as [al|] eqn:Ey; [|discriminate].
      destruct (addall _ _ _ _ _ _) as [m|] eqn:Em; [|discriminate]. injection E1 as <-.
      pose proof (uniform_ok _ _ _ _ _ _ (or_intror eq_refl) HR Ex) as (Fb & x' & X1 & X2 & X3 & X5 & X4).
      pose proof (uniform_ok _ _ _ _ _ _ (or_introl eq_refl) HR Ey) as (Fa & y' & Y1 & Y2 & Y3 & Y5 & Y4).
      apply X1, Y1, wp_bind. eapply wp_mono; [|exact HQ].
      apply call_core with (al := al) (be := be); auto; [lia|]. intros j. rewrite terms_ok by auto.
      eapply eqm_trans; [exact (conv_src _ _ 1 0 _ _ j X4 Y4)|]. apply eqm_eq. apply conv_comm_blk. lia. }
    destruct (uniform h 0 (sop h G x)) as [al|] eqn:Ex; [|now apply K2].
    destruct (uniform h 1 (sop h G y)) as [be|] eqn:Ey; [|now apply K2]. now apply (K1 al be).
  Qed.

  Lemma sim_ok : forall l G G' tmp d, R G tmp d -> sim h l G = Some G' ->
    wp (exec inner a c l tmp d) (fun d => exists tmp, R G' tmp d).
  Proof.
    induction l as [|s l IH]; intros G G' tmp d HR E; cbn [sim exec] in *.
    - injection E as <-. apply wp_ret. eauto.
    - destruct s as [s|hi body|p x y].
      + destruct (sim1 h s G) as [G1|] eqn:E1; [|discriminate]. destruct s.
        * apply wp_bind. eapply wp_mono; [eapply setD_ok; eauto|]. cbn beta. intros. eapply IH; eauto.
        * apply wp_bind. eapply wp_mono; [eapply setT_ok; eauto|]. cbn beta. intros. eapply IH; eauto.
      + destruct (0 <=? hi) eqn:Hi; [|discriminate]. destruct (simfor h _ 0 body G) as [G1|] eqn:E1; [|discriminate].
        apply wp_bind. eapply wp_mono; [eapply simfor_ok; eauto; lia|]. intros (tmp1, d1) HR1. eapply IH; eauto.
      + destruct (simcall h p x y G) as [G1|] eqn:E1; [|discriminate]. eapply simcall_ok; eauto.
  Qed.

  Hypothesis Td : typed U16 d0.
  Hypothesis Zd : forall k, 4 * h <= k < 8 * h - 1 -> get d0 k = 0.

  Lemma R_init : forall tmp, len tmp = h -> R (S_init h) tmp d0.
  Proof.
    intros tmp Lt. split; [auto|]. split; [auto|]. split; [auto|]. unfold S_init. cbn [s_t s_d]. split; [|split; [|auto]].
    - intros p l. unfold zfind. destruct (p <? 0); [discriminate|]. rewrite PositiveMap.gempty. discriminate.
    - assert (Hin : forall k, In k (range (8 * h - 1)) -> 0 <= k < 8 * h - 1).
      { intros k Hk. unfold range, ztab in Hk. apply in_map_iff in Hk. destruct Hk as (j & <- & Hj). apply in_seq in Hj. lia. }
      revert Hin. generalize (range (8 * h - 1)). induction l as [|k l IH]; intros Hin p q; cbn [fold_right].
      + unfold zfind. destruct (p <? 0); [discriminate|]. rewrite PositiveMap.gempty. discriminate.
      + pose proof (Hin k (or_introl eq_refl)). rewrite zfind_add by lia. destruct (p =? k) eqn:E.
        * assert (p = k) as -> by lia. intros [= <-]. split; [auto|]. unfold d_init. destruct (k <? 4 * h) eqn:E4; cbn [leval].
          -- rewrite env_D. apply eqm_eq. lia.
          -- rewrite Zd by lia. apply eqm_refl.
        * apply IH. intros. apply Hin. now right.
  Qed.

  Lemma expected_ok : forall k, 0 <= k < 8 * h - 1 ->
    eq16 (leval env (expected h k)) (get d0 k + conv (4 * h) (blk (4 * h) 0 (get a)) (blk (4 * h) 0 (get c)) k).
  Proof.
    intros k Hk. apply eqm_eq. unfold expected. rewrite leval_add.
    assert (E1 : leval env (d_init h k) = get d0 k).
    { unfold d_init. destruct (k <? 4 * h) eqn:E4; cbn [leval]; [rewrite env_D; lia|]. now rewrite Zd by lia. }
    rewrite E1. clear E1. f_equal.
    assert (E2 : forall u v, 0 <= u < 4 -> 0 <= v < 4 -> leval env (prod_at h k (u, v)) = PP u v (k - h * (u + v))).
    { intros u v Hu Hv. unfold prod_at. destruct (_ && _) eqn:B; cbn [leval]; [rewrite env_P by auto; lia|].
      unfold PP. rewrite conv_out; [auto|apply blk_supp|lia]. }
    unfold pairs. cbn [fold_right]. rewrite !leval_add, !E2 by lia. cbn [leval].
    rewrite conv_blocks by (try apply blk_supp; lia). cbv zeta.
    assert (E3 : forall (l : list Z) u, 0 <= u < 4 -> forall i, blk h u (blk (4 * h) 0 (get l)) i = blk h u (get l) i).
    { intros l u Hu i. unfold blk. destruct ((0 <=? i) && (i <? h)) eqn:B; [|auto].
      assert (0 <= h * u + i < 4 * h) by nia. destruct ((0 <=? h * u + i) && _) eqn:B2; [|lia]. now replace (4 * h * 0 + (h * u + i)) with (h * u + i) by lia. }
    assert (E4 : forall u v j, 0 <= u < 4 -> 0 <= v < 4 ->
      conv h (blk h u (blk (4 * h) 0 (get a))) (blk h v (blk (4 * h) 0 (get c))) j = PP u v j).
    { intros. apply conv_ext; intros; now apply E3. }
    rewrite !E4 by lia. change (3 + 3) with 6. cbn [Z.add Pos.add Pos.succ]. rewrite Z.mul_0_r, Z.sub_0_r. lia.
  Qed.
End Sound.

Lemma mulacc_kara : forall h X Y inner tmp, 1 <= h -> check h = true -> len tmp = h -> mulacc h (4 * X) (4 * Y) inner ->
  mulacc (4 * h) X Y (unrolled_kara (2 * h) h inner tmp).
Proof.
  intros h X0 Y0 inner tmp Hh C Lt Hi0 x y d Tx Ty Td Lx Ly Ld HB Zd.
  assert (exists X Y, mulacc h (4 * X) (4 * Y) inner /\ upto (4 * h) X x /\ upto (4 * h) Y y) as (X & Y & Hi & BX & BY).
  { destruct HB as [(B1 & B2)|(B1 & B2)]; [exists X0, Y0; auto|]. exists Y0, X0. split; [|auto].
    intros x1 y1 d1 T1 T2 T3 L1 L2 L3 B. apply Hi0; auto. tauto. }
  clear Hi0 HB X0 Y0. rewrite prog_ok. unfold check in C.
  destruct (sim h (prog (2 * h) h) (S_init h)) as [G|] eqn:E; [|discriminate].
  eapply wp_mono.
  - apply sim_ok with (h := h) (X := X) (Y := Y) (d0 := d) (G := S_init h) (G' := G); auto; try lia. apply R_init; auto. intros. apply Zd. lia.
  - cbn beta. intros r (tmp' & R1 & R2 & R3 & R4 & R5 & R6). split; [auto|]. split; [auto|].
    intros k Hk. destruct (Z_lt_ge_dec k (8 * h - 1)).
    + pose proof (forallb_range _ _ C k ltac:(lia)) as Ck. cbn beta in Ck. destruct (zfind k (s_d G)) as [l0|] eqn:Ek; [|discriminate].
      apply leqb_ok in Ck. subst l0. apply R5 in Ek. destruct Ek as (_ & Ek). eapply eqm_trans; [exact Ek|].
      apply expected_ok; auto; try lia. intros. apply Zd. lia.
    + rewrite R6 by lia. apply eqm_eq. rewrite conv_out; [lia|apply blk_supp|lia].
Qed.

Lemma check16 : check 16 = true. Proof. vm_cast_no_check (eq_refl true). Qed.
Lemma check64 : check 64 = true. Proof. vm_cast_no_check (eq_refl true). Qed.

(** ** The schoolbook product *)
Lemma st_step : forall (a b c : list Z) i j f (Q : list Z -> Prop), typed U16 a -> typed U16 b -> rep c f ->
  0 <= i < len a -> 0 <= j < len b -> i + j < len c ->
  (forall c', len c' = len c -> rep c' (fun k => f k + if k =? i + j then get a i * get b j else 0) -> Q c') ->
  wp (st U16 c (i + j) (Idx U16 c (i + j) + Cast U32 (Idx U16 a i) * Idx U16 b j)%C) Q.
Proof.
  intros a b c i j f Q Ta Tb Rc Hi Hj Hk HQ.
  eapply wp_st16 with (v := f (i + j) + get a i * get b j); [exact Rc|lia|reflexivity| | |].
  - cbn [lok]. pose proof (proj1 Rc). repeat split; auto; lia.
  - cbn [val val_bin ty promote common]. unfold uw, cv. cbn [signed subr].
    eapply eqm_trans; [apply wrap32|]. apply eqm_add; [apply Rc; lia|]. eapply eqm_trans; [apply wrap32|].
    apply eqm_mul; first [apply wrap32|apply eqm_refl].
  - intros c' Lc' Rc'. apply HQ; auto. eapply rep_ext; [exact Rc'|]. cbn beta. intros k _. destruct (k =? i + j) eqn:E; [|lia].
    assert (k = i + j) as -> by lia. lia.
Qed.

Lemma mulacc_school : forall X Y, mulacc 16 X Y school_book_mul2_16_wrap.
Proof.
  intros X Y x y d Tx Ty Td Lx Ly Ld _ _.
  set (fx := blk 16 0 (get x)). set (fy := blk 16 0 (get y)).
  apply wp_for with (I := fun i c => len c = len d /\ rep c (fun k => get d k + pc fx fy i 0 k)).
  - lia.
  - split; [auto|]. eapply rep_ext; [apply rep_get; auto|]. intros. cbn beta. rewrite pc_0. lia.
  - intros i c Hi (Lc & Rc).
    apply wp_for with (I := fun j c => len c = len d /\ rep c (fun k => get d k + pc fx fy i j k)); [lia|auto| |].
    + intros j c1 Hj (L1 & R1). apply st_step with (f := fun k => get d k + pc fx fy i j k); auto; try lia.
      intros c' Lc' Rc'. split; [lia|]. eapply rep_ext; [exact Rc'|]. intros k _. cbn beta. rewrite pc_step by lia.
      replace (fx i) with (get x i) by (unfold fx; rewrite blk_in by lia; f_equal; lia).
      replace (fy j) with (get y j) by (unfold fy; rewrite blk_in by lia; f_equal; lia). lia.
    + intros c1 (L1 & R1). split; [auto|]. eapply rep_ext; [exact R1|]. intros k _. cbn beta. f_equal.
      apply pc_row; [lia|]. apply blk_supp.
  - intros c (Lc & Tc & Rc). split; [auto|]. split; [auto|]. intros k Hk. eapply eqm_trans; [apply Rc; lia|]. apply eqm_eq.
    now rewrite pc_end.
Qed.

Lemma mulacc_top : forall sb junk X Y, mulacc 16 (16 * X) (16 * Y) sb -> mulacc 256 X Y (kara_top sb junk).
Proof.
  intros sb junk X Y Hs. unfold kara_top, kara_bottom.
  apply (mulacc_kara 64); [lia|apply check64|apply len_ztab; lia|].
  apply (mulacc_kara 16); [lia|apply check16|apply len_ztab; lia|]. rewrite !Z.mul_assoc. exact Hs.
Qed.

(** ** pol_mul *)
Lemma wp_pol_mul : forall sb junk a b res X Y, mulacc 16 (16 * X) (16 * Y) sb -> upto 256 X a -> upto 256 Y b -> arr U16 256 a -> arr U16 256 b -> arr U16 256 res ->
  wp (pol_mul_with sb junk a b res) (fun r => r = ztab 256 (fun k => (get res k + mul_coef a b k) mod 65536)).
Proof.
  intros sb junk a b res X Y Hs Ba Bb (La & Ta) (Lb & Tb) (Lr & Tr). unfold pol_mul_with.
  apply wp_bind. apply wp_for with (I := fun i c => len c = 512 /\ forall k, 0 <= k < i -> get c k = 0); [lia| | |].
  - split; [apply len_ztab; lia|lia].
  - intros i c Hi (Lc & Zc). apply wp_st; [reflexivity|cbn; lia|lia|]. split; [now rewrite len_upd|].
    intros k Hk. unfold get. rewrite znth_upd by lia. destruct (k =? i) eqn:E; [reflexivity|]. apply Zc. lia.
  - intros c (Lc & Zc).
    assert (Tc : typed U16 c) by (apply (Forall_znth_iff) with (d := 0); intros i Hi; fold (get c i); rewrite Zc by lia; cbn; lia).
    apply wp_bind. eapply wp_mono; [apply mulacc_top with (X := X) (Y := Y); auto; try lia; intros; apply Zc; lia|].
    cbn beta. intros d (Ld & Td & Vd). rewrite Lc in *.
    set (P := conv 256 (get a) (get b)).
    assert (Vd' : forall k, 0 <= k < 512 -> eq16 (get d k) (P k)).
    { intros k Hk. eapply eqm_trans; [apply Vd; auto|]. rewrite Zc by lia. apply eqm_eq. rewrite Z.add_0_l.
      apply conv_ext; intros i; [intros Hi; rewrite blk_in by lia; f_equal; lia|]. unfold blk.
      destruct (_ && _) eqn:B; [f_equal; lia|]. symmetry. apply (get_supp b 256); [auto|lia]. }
    apply wp_bind. apply wp_for with (I := fun i c => len c = 512 /\ rep c (fun k => if k <? i - 256 then P k - P (k + 256) else P k)).
    + lia.
    + split; [auto|]. split; [auto|]. intros k Hk. destruct (k <? 256 - 256) eqn:E; [lia|]. apply Vd'. lia.
    + intros i c1 Hi (L1 & R1). eapply wp_st16 with (v := P (i - 256) - P i); [exact R1|lia|reflexivity| | |].
      * cbn [lok]. pose proof (proj1 R1). repeat split; auto; lia.
      * cbn [val val_bin ty promote common]. unfold uw, cv. cbn [signed subr]. pose proof (proj2 R1) as V1. apply eqm_sub.
        -- eapply eqm_trans; [apply V1; lia|]. destruct (_ <? _) eqn:E; [lia|apply eqm_refl].
        -- eapply eqm_trans; [apply V1; lia|]. destruct (_ <? _) eqn:E; [lia|apply eqm_refl].
      * intros c' Lc' Rc'. split; [lia|]. eapply rep_ext; [exact Rc'|]. cbn beta. intros k Hk.
        destruct (k =? i - 256) eqn:E; destruct (k <? i - 256) eqn:E1; destruct (k <? i + 1 - 256) eqn:E2; try lia.
        replace (k + 256) with i by lia. replace (i - 256) with k by lia. reflexivity.
    + intros c1 (L1 & T1 & V1).
      assert (V : forall k, 0 <= k < 256 -> eq16 (get c1 k) (mul_coef a b k)).
      { intros k Hk. rewrite mul_coef_conv by auto. fold P. eapply eqm_trans; [apply V1; lia|]. apply eqm_eq.
        destruct (k <? 511 - 256) eqn:E; [lia|]. assert (k = 255) as -> by lia.
        replace (P (255 + 256)) with 0; [lia|]. symmetry. apply conv_out; [apply get_supp; auto|lia]. }
      eapply wp_mono with (P := fun r => len r = 256 /\ rep r (fun k => get res k + mul_coef a b k)).
      * apply wp_for with (I := fun i c => len c = 256 /\ rep c (fun k => get res k + if k <? i then mul_coef a b k else 0)).
        -- lia.
        -- split; [auto|]. eapply rep_ext; [apply rep_get; auto|]. intros k Hk. cbn beta. destruct (k <? 0) eqn:E; lia.
        -- intros i r Hi (L & R). eapply wp_st16 with (v := get res i + mul_coef a b i); [exact R|lia|reflexivity| | |].
           ++ cbn [lok]. pose proof (proj1 R). repeat split; auto; lia.
           ++ cbn [val val_bin ty promote common]. unfold uw, cv. cbn [signed subr]. apply eqm_add; [|apply V; lia].
              eapply eqm_trans; [apply (proj2 R); lia|]. apply eqm_eq. destruct (_ <? _) eqn:E; lia.
           ++ intros c' Lc' Rc'. split; [lia|]. eapply rep_ext; [exact Rc'|]. cbn beta. intros k Hk.
              destruct (k =? i) eqn:E; destruct (k <? i) eqn:E1; destruct (k <? i + 1) eqn:E2; try lia.
              assert (k = i) as -> by lia. reflexivity.
        -- intros r (L & R). split; [auto|]. eapply rep_ext; [exact R|]. intros k Hk. cbn beta. destruct (k <? 256) eqn:E; lia.
      * cbn beta. intros r (L & T & V2). apply ztab_eq with (d := 0); [auto|]. intros k Hk.
        apply eq16_u16.
        -- apply (typed_u16 r k T).
        -- unfold u16. pose proof (Z.mod_pos_bound (get res k + mul_coef a b k) 65536). lia.
        -- eapply eqm_trans; [apply V2; lia|]. apply eqm_sym, eqm_mod. lia.
Qed.

(** ** As written: every defined execution agrees with the wrapping one *)
Definition ref {A} (m1 m2 : M A) : Prop := forall t, m1 t = UB \/ m1 t = m2 t.

Lemma ref_refl : forall A (m : M A), ref m m. Proof. intros A m t. now right. Qed.
Lemma ref_bind : forall A B (m1 m2 : M A) (f1 f2 : A -> M B), ref m1 m2 -> (forall a, ref (f1 a) (f2 a)) -> ref (bind m1 f1) (bind m2 f2).
Proof.
  intros A B m1 m2 f1 f2 Hm Hf t. unfold bind. destruct (Hm t) as [E|E]; rewrite E; [now left|].
  destruct (m2 t) as [a t'|]; [apply Hf|now left].
Qed.
Lemma ref_forn : forall S (f1 f2 : Z -> S -> M S) n i s, (forall i s, ref (f1 i s) (f2 i s)) -> ref (forn n i f1 s) (forn n i f2 s).
Proof.
  induction n as [|n IH]; intros i s H; cbn [forn]; [apply ref_refl|].
  apply ref_bind; [apply ref_refl|]. intros _. apply ref_bind; [apply H|]. intros. now apply IH.
Qed.
Lemma ref_for : forall S (f1 f2 : Z -> S -> M S) lo hi s, (forall i s, ref (f1 i s) (f2 i s)) -> ref (for_ lo hi f1 s) (for_ lo hi f2 s).
Proof. intros. unfold for_. apply ref_forn. auto. Qed.
Lemma ref_at : forall a p f1 f2, (forall x, ref (f1 x) (f2 x)) -> ref (at_ a p f1) (at_ a p f2).
Proof.
  intros a p f1 f2 H. unfold at_. destruct (_ && _); [|apply ref_refl]. apply ref_bind; [apply ref_refl|]. intros _.
  apply ref_bind; [apply H|]. intros. apply ref_refl.
Qed.
Lemma ref_run : forall A (m1 m2 : M A) r, ref m1 m2 -> run m1 = Some r -> run m2 = Some r.
Proof. intros A m1 m2 r H. unfold run. destruct (H []) as [E|E]; rewrite E; auto. discriminate. Qed.

Lemma ref_school : forall a b c, ref (school_book_mul2_16 a b c) (school_book_mul2_16_wrap a b c).
Proof.
  intros. apply ref_for. intros i c1. apply ref_for. intros j c2. unfold st. intros t. unfold bind. cbn [ev].
  unfold bind, lift, eval_bin, ret. cbn [ty promote common arith signed].
  destruct (rd c2 (i + j) t) as [v0 t0|]; [|now left]. destruct (rd a i t0) as [v1 t1|]; [|now left].
  destruct (rd b j t1) as [v2 t2|]; [|now left].
  destruct (inr I32 (wrap I32 v1 * wrap I32 v2)) eqn:E1; [|now left].
  destruct (inr I32 (wrap I32 v0 + _)) eqn:E2; [|now left]. right.
  assert (W : forall x, eqm 65536 (wrap I32 x) x).
  { intros x. apply eqm_divide with (2 ^ 16). destruct (eqm_mod (65536 * 2 ^ 16) (x + 2 ^ 31) ltac:(lia)) as (q & Hq). exists q.
    cbn [wrap]. change (65536 * 2 ^ 16) with (2 ^ 32) in *. lia. }
  match goal with |- wr _ _ (wrap U16 ?X) _ = wr _ _ (wrap U16 ?Y) _ => assert (EX : eqm 65536 X Y) end.
  { apply eqm_trans with (v0 + v1 * v2).
    - apply eqm_add; [apply W|]. eapply eqm_trans; [apply W|]. apply eqm_mul; apply W.
    - apply eqm_sym. eapply eqm_trans; [apply wrap32|]. apply eqm_add; [apply wrap32|]. eapply eqm_trans; [apply wrap32|].
      eapply eqm_trans; [apply wrap32|]. apply eqm_mul; [|apply wrap32]. eapply eqm_trans; apply wrap32. }
  apply eqm_mod_eq in EX; [|lia]. f_equal. exact EX.
Qed.

Lemma ref_kara : forall K h f1 f2 tmp a c d, (forall x y d, ref (f1 x y d) (f2 x y d)) ->
  ref (unrolled_kara K h f1 tmp a c d) (unrolled_kara K h f2 tmp a c d).
Proof.
  intros K h f1 f2 tmp a c d H. rewrite !prog_ok. generalize (prog K h). intros l. revert tmp d.
  induction l as [|[[p e|p e]|hi body|p x y] l IH]; intros tmp d; cbn [exec].
  - apply ref_refl.
  - apply ref_bind; [apply ref_refl|auto].
  - apply ref_bind; [apply ref_refl|auto].
  - apply ref_bind; [apply ref_refl|]. intros (tmp1, d1). apply IH.
  - assert (O : forall o k1 k2, (forall x, ref (k1 x) (k2 x)) -> ref (operand a c tmp d o k1) (operand a c tmp d o k2)).
    { intros o k1 k2 Hk. destruct o; cbn [operand]; [apply Hk|]. apply ref_bind; [apply ref_refl|auto]. }
    apply O. intros x'. apply O. intros y'. apply ref_bind; [|auto]. apply ref_at. auto.
Qed.

Lemma ref_pol_mul : forall junk a b res, ref (pol_mul junk a b res) (pol_mul_wrap junk a b res).
Proof.
  intros. unfold pol_mul, pol_mul_wrap, pol_mul_with. apply ref_bind; [apply ref_refl|]. intros c.
  apply ref_bind; [|intros; apply ref_refl]. apply ref_kara. intros. apply ref_kara. intros. apply ref_school.
Qed.

(** As written, for entries small enough. *)
Lemma st_step_int : forall (a b c : list Z) i j f (Q : list Z -> Prop), typed U16 a -> typed U16 b -> rep c f ->
  0 <= i < len a -> 0 <= j < len b -> i + j < len c -> get a i * get b j <= 2147418112 ->
  (forall c', len c' = len c -> rep c' (fun k => f k + if k =? i + j then get a i * get b j else 0) -> Q c') ->
  wp (st U16 c (i + j) (Idx U16 c (i + j) + Idx U16 a i * Idx U16 b j)%C) Q.
Proof.
  intros a b c i j f Q Ta Tb Rc Hi Hj Hk Hp HQ. pose proof (typed_u16 a i Ta) as Ua. pose proof (typed_u16 b j Tb) as Ub.
  pose proof (typed_u16 c (i + j) (proj1 Rc)) as Uc. unfold u16 in *.
  unfold st. apply wp_bind. cbn [ev]. apply wp_bind, wp_rd; [lia|]. apply wp_bind. apply wp_bind, wp_rd; [lia|].
  apply wp_bind, wp_rd; [lia|]. cbn [ty]. fold (get a i) (get b j) (get c (i + j)).
  apply wp_lift with (a := get a i * get b j).
  { unfold eval_bin, arith. cbn [promote common signed]. rewrite !(wrap_id I32) by (cbn; lia). unfold inr. cbn [tmin tmax].
    destruct (_ && _) eqn:E; [reflexivity|]. assert (0 <= get a i * get b j) by nia. lia. }
  apply wp_lift with (a := get c (i + j) + get a i * get b j).
  { assert (0 <= get a i * get b j) by nia. unfold eval_bin, arith. cbn [promote common signed ty]. rewrite !(wrap_id I32) by (cbn; lia). unfold inr. cbn [tmin tmax].
    destruct (_ && _) eqn:E; [reflexivity|]. lia. }
  apply wp_wr; [lia|]. apply HQ; [apply len_upd|]. destruct Rc as (Tc & Vc).
  split; [apply typed_upd; auto; apply wrap_range|]. intros k Hk'. rewrite len_upd in Hk'. unfold get. rewrite znth_upd by lia.
  destruct (k =? i + j) eqn:E; [|rewrite Z.add_0_r; apply Vc; auto]. assert (k = i + j) as -> by lia.
  eapply eqm_trans; [apply wrap16|]. apply eqm_add; [apply Vc; lia|apply eqm_refl].
Qed.

Lemma mulacc_school_int : forall X Y, Z.min X 65535 * Z.min Y 65535 <= 2147418112 -> mulacc 16 X Y school_book_mul2_16.
Proof.
  intros X Y HXY x y d Tx Ty Td Lx Ly Ld HB _.
  assert (PB : forall i j, 0 <= i < 16 -> 0 <= j < 16 -> get x i * get y j <= 2147418112).
  { intros i j Hi Hj. pose proof (typed_u16 x i Tx) as Ux. pose proof (typed_u16 y j Ty) as Uy. unfold u16 in *.
    destruct HB as [(B1 & B2)|(B1 & B2)]; specialize (B1 i Hi); specialize (B2 j Hj); nia. }
  set (fx := blk 16 0 (get x)). set (fy := blk 16 0 (get y)).
  apply wp_for with (I := fun i c => len c = len d /\ rep c (fun k => get d k + pc fx fy i 0 k)).
  - lia.
  - split; [auto|]. eapply rep_ext; [apply rep_get; auto|]. intros. cbn beta. rewrite pc_0. lia.
  - intros i c Hi (Lc & Rc).
    apply wp_for with (I := fun j c => len c = len d /\ rep c (fun k => get d k + pc fx fy i j k)); [lia|auto| |].
    + intros j c1 Hj (L1 & R1). apply st_step_int with (f := fun k => get d k + pc fx fy i j k); auto; try lia.
      intros c' Lc' Rc'. split; [lia|]. eapply rep_ext; [exact Rc'|]. intros k _. cbn beta. rewrite pc_step by lia.
      replace (fx i) with (get x i) by (unfold fx; rewrite blk_in by lia; f_equal; lia).
      replace (fy j) with (get y j) by (unfold fy; rewrite blk_in by lia; f_equal; lia). lia.
    + intros c1 (L1 & R1). split; [auto|]. eapply rep_ext; [exact R1|]. intros k _. cbn beta. f_equal.
      apply pc_row; [lia|]. apply blk_supp.
  - intros c (Lc & Tc & Rc). split; [auto|]. split; [auto|]. intros k Hk. eapply eqm_trans; [apply Rc; lia|]. apply eqm_eq.
    now rewrite pc_end.
Qed.
