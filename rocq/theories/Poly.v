(** Sparse integer polynomials over numbered atoms, used by the reflective
    analyser.  Only evaluation lemmas are needed; sortedness is a matter of
    efficiency and never of soundness. *)
From Coq Require Import ZArith List Bool Lia.
Import ListNotations.
Local Open Scope Z_scope.

Definition mono := list positive.
Definition poly := list (mono * Z).

Definition meval (r : positive -> Z) (m : mono) : Z := fold_right (fun a z => r a * z) 1 m.
Definition peval (r : positive -> Z) (p : poly) : Z :=
  fold_right (fun mc z => snd mc * meval r (fst mc) + z) 0 p.

Fixpoint mcmp (a b : mono) : comparison :=
  match a, b with
  | [], [] => Eq
  | [], _ => Lt
  | _, [] => Gt
  | x :: a', y :: b' => match Pos.compare x y with Eq => mcmp a' b' | c => c end
  end.

Lemma mcmp_eq a b : mcmp a b = Eq -> a = b.
Proof.
  revert b; induction a as [|x a IH]; destruct b as [|y b]; simpl; try congruence.
  destruct (Pos.compare x y) eqn:E; try congruence.
  apply Pos.compare_eq in E; intros H; apply IH in H; congruence.
Qed.

Fixpoint pinsert (m : mono) (c : Z) (p : poly) : poly :=
  match p with
  | [] => if c =? 0 then [] else [(m, c)]
  | (m', c') :: t =>
      match mcmp m m' with
      | Eq => let s := c + c' in if s =? 0 then t else (m, s) :: t
      | Lt => if c =? 0 then p else (m, c) :: p
      | Gt => (m', c') :: pinsert m c t
      end
  end.

Lemma pinsert_eval r m c p : peval r (pinsert m c p) = c * meval r m + peval r p.
Proof.
  induction p as [|[m' c'] t IH]; simpl.
  - destruct (Z.eqb_spec c 0); subst; simpl; lia.
  - destruct (mcmp m m') eqn:E; simpl.
    + apply mcmp_eq in E; subst m'.
      destruct (Z.eqb_spec (c + c') 0) as [H|H]; simpl.
      * replace c' with (- c) by lia. lia.
      * lia.
    + destruct (Z.eqb_spec c 0); subst; simpl; lia.
    + rewrite IH. lia.
Qed.

Fixpoint padd (p q : poly) {struct p} : poly :=
  match p with
  | [] => q
  | (m, c) :: p' =>
      (fix go (q : poly) : poly :=
         match q with
         | [] => p
         | (m', c') :: q' =>
             match mcmp m m' with
             | Eq => let s := c + c' in if s =? 0 then padd p' q' else (m, s) :: padd p' q'
             | Lt => (m, c) :: padd p' q
             | Gt => (m', c') :: go q'
             end
         end) q
  end.

Lemma padd_eval r p q : peval r (padd p q) = peval r p + peval r q.
Proof.
  revert q; induction p as [|[m c] p IH]; intros q; [simpl; lia|].
  induction q as [|[m' c'] q IHq]; [simpl; lia|].
  simpl in *. destruct (mcmp m m') eqn:E.
  - apply mcmp_eq in E; subst m'.
    destruct (Z.eqb_spec (c + c') 0) as [H|H]; simpl; rewrite IH; [replace c' with (- c) by lia|]; lia.
  - simpl. rewrite IH. simpl. lia.
  - simpl. rewrite IHq. lia.
Qed.

Definition pscale (k : Z) (p : poly) : poly :=
  if k =? 0 then [] else if k =? 1 then p else map (fun mc => (fst mc, k * snd mc)) p.

Lemma pscale_eval r k p : peval r (pscale k p) = k * peval r p.
Proof.
  unfold pscale. destruct (Z.eqb_spec k 0); [subst; simpl; lia|].
  destruct (Z.eqb_spec k 1); [subst; lia|].
  induction p as [|[m c] t IH]; simpl in *; [lia|]. rewrite IH. lia.
Qed.

Definition psub (p q : poly) : poly := padd p (pscale (-1) q).
Lemma psub_eval r p q : peval r (psub p q) = peval r p - peval r q.
Proof. unfold psub. rewrite padd_eval, pscale_eval. lia. Qed.

Definition pconst (c : Z) : poly := if c =? 0 then [] else [([], c)].
Lemma pconst_eval r c : peval r (pconst c) = c.
Proof. unfold pconst. destruct (Z.eqb_spec c 0); simpl; lia. Qed.

Definition patom (a : positive) : poly := [([a], 1)].
Lemma patom_eval r a : peval r (patom a) = r a.
Proof. unfold patom, peval, meval; cbn [fold_right fst snd]. lia. Qed.

Fixpoint mmul (a b : mono) {struct a} : mono :=
  match a with
  | [] => b
  | x :: a' =>
      (fix go (b : mono) : mono :=
         match b with
         | [] => a
         | y :: b' => if (x <=? y)%positive then x :: mmul a' b else y :: go b'
         end) b
  end.

Lemma meval_cons r x a : meval r (x :: a) = r x * meval r a.
Proof. reflexivity. Qed.
Lemma peval_cons r m c p : peval r ((m, c) :: p) = c * meval r m + peval r p.
Proof. reflexivity. Qed.

Lemma mmul_eval r a b : meval r (mmul a b) = meval r a * meval r b.
Proof.
  revert b; induction a as [|x a IH]; intros b.
  - change (meval r (mmul [] b)) with (meval r b). change (meval r []) with 1. ring.
  - induction b as [|y b IHb].
    + change (meval r (mmul (x :: a) [])) with (meval r (x :: a)). change (meval r []) with 1. ring.
    + change (mmul (x :: a) (y :: b)) with
        (if (x <=? y)%positive then x :: mmul a (y :: b) else y :: mmul (x :: a) b).
      destruct (x <=? y)%positive; rewrite !meval_cons.
      * rewrite IH, meval_cons. ring.
      * rewrite IHb, meval_cons. ring.
Qed.

Definition pmul (p q : poly) : poly :=
  fold_right (fun mc acc =>
    fold_right (fun md acc => pinsert (mmul (fst mc) (fst md)) (snd mc * snd md) acc) acc q) [] p.

Lemma pmul_eval r p q : peval r (pmul p q) = peval r p * peval r q.
Proof.
  assert (H : forall m c acc,
    peval r (fold_right (fun md acc => pinsert (mmul m (fst md)) (c * snd md) acc) acc q)
    = c * meval r m * peval r q + peval r acc).
  { intros m c acc; induction q as [|[m' c'] q' IHq].
    - cbn [fold_right]. change (peval r []) with 0. ring.
    - cbn [fold_right fst snd]. rewrite pinsert_eval, mmul_eval, IHq, peval_cons. ring. }
  unfold pmul. induction p as [|[m c] t IH]; [reflexivity|].
  cbn [fold_right fst snd]. rewrite H, IH, peval_cons. ring.
Qed.

Fixpoint meqb (a b : mono) : bool :=
  match a, b with
  | [], [] => true
  | x :: a', y :: b' => Pos.eqb x y && meqb a' b'
  | _, _ => false
  end.
Lemma meqb_eq a b : meqb a b = true -> a = b.
Proof.
  revert b; induction a; destruct b; simpl; try congruence.
  rewrite andb_true_iff; intros [H1 H2]. apply Pos.eqb_eq in H1. f_equal; auto.
Qed.

Fixpoint peqb (p q : poly) : bool :=
  match p, q with
  | [], [] => true
  | (m, c) :: p', (m', c') :: q' => Z.eqb c c' && meqb m m' && peqb p' q'
  | _, _ => false
  end.
Lemma peqb_eq p q : peqb p q = true -> p = q.
Proof.
  revert q; induction p as [|[m c] p IH]; destruct q as [|[m' c'] q]; simpl; try congruence.
  rewrite !andb_true_iff; intros [[H1 H2] H3].
  apply Z.eqb_eq in H1; apply meqb_eq in H2; apply IH in H3; congruence.
Qed.

(** split off the part whose coefficients are divisible by [d] *)
Fixpoint psplit (d : Z) (p : poly) : poly * poly :=
  match p with
  | [] => ([], [])
  | (m, c) :: t =>
      let '(l, h) := psplit d t in
      if c mod d =? 0 then (l, (m, c / d) :: h) else ((m, c) :: l, h)
  end.
Lemma psplit_eval r d p : d <> 0 ->
  peval r p = peval r (fst (psplit d p)) + d * peval r (snd (psplit d p)).
Proof.
  intros Hd; induction p as [|[m c] t IH]; simpl; [lia|].
  destruct (psplit d t) as [l h]; simpl in *.
  destruct (Z.eqb_spec (c mod d) 0) as [H|H]; simpl; [|lia].
  rewrite (Z.div_mod c d) at 1 by assumption. rewrite H, IH. ring.
Qed.

(** all coefficients divisible by [d] ([d] = 0: the zero polynomial) *)
Definition pdivisible (d : Z) (p : poly) : bool := forallb (fun mc => snd mc mod d =? 0) p.
Lemma pdivisible_sound r d p : pdivisible d p = true -> exists k, peval r p = d * k.
Proof.
  induction p as [|[m c] t IH]; simpl; [exists 0; lia|].
  rewrite andb_true_iff; intros [H1 H2]. destruct (IH H2) as [k Hk].
  apply Z.eqb_eq in H1.
  exists (c / d * meval r m + k). rewrite Hk.
  destruct (Z.eq_dec d 0) as [->|Hd].
  - rewrite Zmod_0_r in H1. subst. lia.
  - rewrite (Z.div_mod c d) at 1 by assumption. rewrite H1. ring.
Qed.

Definition pscoped (n : positive) (p : poly) : bool :=
  forallb (fun mc => forallb (fun a => (a <? n)%positive) (fst mc)) p.
Lemma pscoped_eval n p r r' : pscoped n p = true ->
  (forall a, (a < n)%positive -> r a = r' a) -> peval r p = peval r' p.
Proof.
  intros H E; induction p as [|[m c] t IH]; [reflexivity|].
  simpl in H. apply andb_true_iff in H as [H1 H2].
  cbn [peval fold_right fst snd]. unfold peval in IH. rewrite (IH H2). f_equal. f_equal.
  clear -H1 E. induction m as [|a m IHm]; [reflexivity|].
  simpl in H1. apply andb_true_iff in H1 as [Ha Hm].
  cbn [meval fold_right]. unfold meval in IHm. rewrite (IHm Hm), (E a) by (apply Pos.ltb_lt; exact Ha). reflexivity.
Qed.
