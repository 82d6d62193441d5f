(** From the checker's verdicts to facts about the nine fields' straight-line
    methods (addition, subtraction, multiplication, squaring, the small-integer
    operations, packing and unpacking). *)
From Coq Require Import ZArith List String Lia Bool.
From Verif Require Import Lang Poly Kernel Fields.
Import ListNotations.
Local Open Scope string_scope.
Local Open Scope Z_scope.

(** ** Layout sanity, by computation over the nine fields *)
Definition layout_ok (F : fld) : bool :=
  (1 <? fl_n F)%nat && (1 <? fl_w F) && (1 <? fl_tb F) && (fl_tb F <? fl_w F) && (fl_w F <? 60) &&
  (0 <? fl_C F) && (fl_C F <? 200) && (200 <? 2 ^ fl_tb F) &&
  (nbits F <=? 8 * Z.of_nat (fl_nb F)) && (8 * Z.of_nat (fl_nb F) <? fl_w F * Z.of_nat (fl_n F)) &&
  (fl_w F * Z.of_nat (fl_n F - 1) <? 8 * Z.of_nat (fl_nb F)).
Lemma layout : forallb layout_ok all_fields = true. Proof. vm_compute. reflexivity. Qed.
Lemma layout_facts F : In F all_fields ->
  (1 < fl_n F)%nat /\ 1 < fl_w F < 60 /\ 1 < fl_tb F < fl_w F /\ 0 < fl_C F < 200 /\
  200 < 2 ^ fl_tb F /\ nbits F <= 8 * Z.of_nat (fl_nb F) < fl_w F * Z.of_nat (fl_n F) /\
  fl_w F * Z.of_nat (fl_n F - 1) < 8 * Z.of_nat (fl_nb F).
Proof.
  intros H. pose proof (proj1 (forallb_forall _ _) layout F H) as L. unfold layout_ok in L.
  rewrite !andb_true_iff in L. rewrite !Nat.ltb_lt, !Z.ltb_lt, !Z.leb_le in L. tauto.
Qed.

Lemma nbits_pos F : In F all_fields -> 1 < nbits F.
Proof. intros H. destruct (layout_facts F H) as (A & B & C & _).
  unfold nbits. assert (1 <= Z.of_nat (fl_n F - 1)) by lia. nia. Qed.
Lemma pow_nbits F : In F all_fields -> 2 ^ nbits F = 2 ^ (fl_w F * Z.of_nat (fl_n F - 1)) * 2 ^ fl_tb F.
Proof. intros H. destruct (layout_facts F H) as (A & B & C & _).
  unfold nbits. rewrite Z.pow_add_r; [reflexivity|apply Z.mul_nonneg_nonneg; lia|lia]. Qed.
Lemma modulus_pos F : In F all_fields -> 0 < modulus F /\ 2 * fl_C F < modulus F /\ 1 < modulus F.
Proof.
  intros H. destruct (layout_facts F H) as (A & B & C & D & E & _).
  unfold modulus. rewrite pow_nbits by auto.
  assert (2 ^ 2 <= 2 ^ (fl_w F * Z.of_nat (fl_n F - 1))) by (assert (1 <= Z.of_nat (fl_n F - 1)) by lia; apply Z.pow_le_mono_r; nia).
  change (2 ^ 2) with 4 in H0. nia.
Qed.

(** ** The program *)
Definition fn (F : fld) (f : string) : func :=
  match lookup f (fl_tbl F) with Some g => g | None => mkfunc [] [] [] end.
Definition has (f : string) (F : fld) : bool :=
  match lookup f (fl_tbl F) with Some _ => true | None => false end.
Lemma has_fn f F : has f F = true -> lookup f (fl_tbl F) = Some (fn F f).
Proof. unfold has, fn. destruct (lookup f (fl_tbl F)); congruence. Qed.

(** calls with any fuel above a known depth *)
Definition runsd (d : nat) (F : fld) (f : string) (args rets outs : list val) : Prop :=
  forall md fuel, (d <= fuel)%nat -> call md no_base (fl_tbl F) fuel f args = Ok (rets, outs).
Lemma runsd_runs d F f args rets outs : (d <= 16)%nat -> runsd d F f args rets outs -> runs F f args rets outs.
Proof. intros L H md. apply H. exact L. Qed.
Lemma runsd_weaken d d' F f args rets outs : (d <= d')%nat -> runsd d F f args rets outs -> runsd d' F f args rets outs.
Proof. intros L H md fuel Hf. apply H. lia. Qed.
Definition panicsd (d : nat) (F : fld) (f : string) (args : list val) : Prop :=
  forall md fuel, (d <= fuel)%nat -> call md no_base (fl_tbl F) fuel f args = Panic.
Lemma panicsd_panics d F f args : (d <= 16)%nat -> panicsd d F f args -> panics F f args.
Proof. intros L H md. apply H. exact L. Qed.

Lemma body_runs F f g args rets outs : lookup f (fl_tbl F) = Some g ->
  (forall md cl, run_func md cl g args = Ok (rets, outs)) -> runsd 1 F f args rets outs.
Proof. intros L H md [|k] Hf; [lia|]. cbn [call]. rewrite L. apply H. Qed.

(** ** Words as checker intervals *)
Definition fbounds (F : fld) (lo hi : Z) : list (Z * Z) :=
  repeat (0, 2 ^ fl_w F - 1) (fl_n F - 1) ++ [(lo, hi)].
Definition dF (F : fld) lo hi := DArr (fbounds F lo hi) false.

Lemma wsum_value w l : wsum w l = words_value w l.
Proof. induction l; simpl; auto. rewrite <- IHl. reflexivity. Qed.

Lemma Forall2_repeat_last b c k l :
  Forall2 inb (repeat b k ++ [c]) l <->
  List.length l = S k /\ (forall i, (i < k)%nat -> inb b (nth i l 0)) /\ inb c (nth k l 0).
Proof.
  revert l. induction k as [|k IH]; intros l; simpl.
  - split.
    + intros H. inversion H as [|? ? ? ? H1 H2]; subst. inversion H2; subst. simpl. repeat split; auto; lia || apply H1.
    + intros (L & _ & H). destruct l as [|x [|]]; simpl in L; try discriminate. repeat constructor; apply H.
  - split.
    + intros H. inversion H as [|? y ? l' H1 H2]; subst. apply IH in H2 as (L & A & B).
      simpl. rewrite L. split; auto. split; auto. intros [|i] Hi; auto. apply A. lia.
    + intros (L & A & B). destruct l as [|y l]; [discriminate|]. constructor.
      * apply (A 0%nat). lia.
      * apply IH. simpl in L. split; [lia|]. split; auto. intros i Hi. apply (A (S i)). lia.
Qed.

Lemma rep_bounds F lo hi l : In F all_fields -> rep F lo hi l <-> Forall2 inb (fbounds F lo hi) l.
Proof.
  intros H. destruct (layout_facts F H) as (A & _).
  unfold fbounds, rep. rewrite Forall2_repeat_last. unfold inb, top. simpl.
  split; intros (L & X & Y); (split; [lia|]); (split; [|exact Y]); intros i Hi; specialize (X i Hi); lia.
Qed.
Lemma rep_arg F lo hi l : In F all_fields -> rep F lo hi l -> arg_ok (dF F lo hi) (VArr l).
Proof.
  intros H R. apply rep_bounds in R; auto. exists l. split; auto.
  rewrite (Forall2_len _ _ _ R). rewrite firstn_all. auto.
Qed.
Lemma rep_weaken F lo hi lo' hi' l : rep F lo hi l -> lo' <= lo -> hi <= hi' -> rep F lo' hi' l.
Proof. intros (L & A & B) H1 H2. split; auto. split; auto. lia. Qed.
Lemma rep_top F lo hi lo' hi' l : rep F lo hi l -> lo' <= top F l <= hi' -> rep F lo' hi' l.
Proof. intros (L & A & B) H. split; auto. Qed.

(** ** Values as checker expressions *)
Fixpoint vexp (j : nat) (w : Z) (i n : nat) : sexp :=
  match n with O => XC 0 | S k => XAdd (XW j i) (XMul (XC (2 ^ w)) (vexp j w (S i) k)) end.
Definition V (F : fld) j := vexp j (fl_w F) 0 (fl_n F).
Definition cy (F : fld) j := XQ j (fl_n F - 1) (fl_tb F).
Definition foldx F j := XSub (V F j) (XMul (XC (modulus F)) (cy F j)).

Lemma vexp_den args j w l : nth_error args j = Some (VArr l) ->
  forall n i, (i + n <= List.length l)%nat -> xden args (vexp j w i n) = words_value w (firstn n (skipn i l)).
Proof.
  intros H. induction n as [|n IH]; intros i L; cbn [vexp xden].
  - reflexivity.
  - rewrite IH by lia. unfold word. rewrite H.
    destruct (skipn i l) as [|x t] eqn:E.
    { assert (List.length (skipn i l) = 0%nat) by (rewrite E; reflexivity). rewrite skipn_length in H0. lia. }
    cbn [firstn words_value]. assert (nth i l 0 = x).
    { rewrite <- (firstn_skipn i l), E. rewrite app_nth2; rewrite firstn_length_le by lia; [|lia].
      rewrite Nat.sub_diag. reflexivity. }
    assert (skipn (S i) l = t).
    { clear -E. revert l E. induction i as [|i IH]; intros l E.
      - simpl in E. subst l. reflexivity.
      - destruct l as [|y l]; [discriminate|]. apply (IH l). exact E. }
    rewrite H0, H1. reflexivity.
Qed.
Lemma V_den F args j lo hi l : nth_error args j = Some (VArr l) -> rep F lo hi l -> xden args (V F j) = value F l.
Proof.
  intros H (L & _). unfold V. rewrite (vexp_den _ _ _ l) by (auto; lia).
  simpl skipn. rewrite firstn_all2 by lia. reflexivity.
Qed.
Lemma cy_den F args j l : nth_error args j = Some (VArr l) -> xden args (cy F j) = carry F l.
Proof. intros H. simpl. unfold word. rewrite H. reflexivity. Qed.
Lemma foldx_den F args j lo hi l : nth_error args j = Some (VArr l) -> rep F lo hi l -> xden args (foldx F j) = folded F l.
Proof.
  intros H R. unfold foldx. cbn [xden]. rewrite (V_den F args j lo hi l), (cy_den F args j l) by auto. reflexivity.
Qed.

Lemma divide_eqmod F a b : (modulus F | a - b) -> eqmod F a b.
Proof.
  intros [q H]. unfold eqmod. replace a with (b + q * modulus F) by lia.
  destruct (Z.eq_dec (modulus F) 0) as [E|E].
  - rewrite E, Z.mul_0_r, Z.add_0_r. reflexivity.
  - apply Z.mod_add; auto.
Qed.
Lemma divide_0_eq a b : (0 | a - b) -> a = b.
Proof. intros [q H]. lia. Qed.

(** ** Generic facts *)
Definition ks2 F lo1 hi1 lo2 hi2 olo ohi m x hs :=
  mkks [dF F lo1 hi1; dF F lo2 hi2] 0 (fl_w F) m (fbounds F olo ohi) x hs.
Definition ks1 F lo1 hi1 olo ohi m x hs :=
  mkks [dF F lo1 hi1] 0 (fl_w F) m (fbounds F olo ohi) x hs.
Definition ksi F lo1 hi1 lo2 hi2 olo ohi m x :=
  mkks [dF F lo1 hi1; DInt lo2 hi2] 0 (fl_w F) m (fbounds F olo ohi) x [].

Lemma out_len F olo ohi ws lo hi (l0 : list Z) : In F all_fields ->
  Forall2 inb (fbounds F olo ohi) ws -> rep F lo hi l0 -> (ws ++ skipn (List.length ws) l0)%list = ws /\ rep F olo ohi ws.
Proof.
  intros H A R. apply rep_bounds in A; auto. split; auto.
  rewrite skipn_all2, app_nil_r; auto. destruct A as (-> & _), R as (-> & _). auto.
Qed.

Section Ops.
  Variables (F : fld) (f : string).
  Hypothesis HF : In F all_fields.
  Hypothesis Hhas : has f F = true.

  Lemma op2 lo1 hi1 lo2 hi2 olo ohi m x hs a b :
    kcheck (fn F f) (ks2 F lo1 hi1 lo2 hi2 olo ohi m x hs) = true ->
    rep F lo1 hi1 a -> rep F lo2 hi2 b ->
    exists o, runsd 1 F f [VArr a; VArr b] [] [VArr o; VArr b] /\ rep F olo ohi o /\
      (m | value F o - xden [VArr a; VArr b] x).
  Proof.
    intros K A B.
    destruct (kernel_sound _ _ K [VArr a; VArr b]) as (l0 & ws & E & R & W & D).
    { repeat constructor; apply rep_arg; auto. }
    injection E as <-. destruct (out_len _ _ _ _ _ _ _ HF W A) as [O1 O2].
    exists ws. split; [|split; auto].
    - eapply body_runs; [apply has_fn; exact Hhas|]. intros md cl. rewrite R. simpl. rewrite O1. reflexivity.
    - unfold value. rewrite <- wsum_value. exact D.
  Qed.
  Lemma op1 lo1 hi1 olo ohi m x hs a :
    kcheck (fn F f) (ks1 F lo1 hi1 olo ohi m x hs) = true ->
    rep F lo1 hi1 a ->
    exists o, runsd 1 F f [VArr a] [] [VArr o] /\ rep F olo ohi o /\
      (m | value F o - xden [VArr a] x).
  Proof.
    intros K A.
    destruct (kernel_sound _ _ K [VArr a]) as (l0 & ws & E & R & W & D).
    { repeat constructor; apply rep_arg; auto. }
    injection E as <-. destruct (out_len _ _ _ _ _ _ _ HF W A) as [O1 O2].
    exists ws. split; [|split; auto].
    - eapply body_runs; [apply has_fn; exact Hhas|]. intros md cl. rewrite R. simpl. rewrite O1. reflexivity.
    - unfold value. rewrite <- wsum_value. exact D.
  Qed.
  Lemma opi lo1 hi1 lo2 hi2 olo ohi m x a b :
    kcheck (fn F f) (ksi F lo1 hi1 lo2 hi2 olo ohi m x) = true ->
    rep F lo1 hi1 a -> lo2 <= b <= hi2 ->
    exists o, runsd 1 F f [VArr a; VInt b] [] [VArr o; VInt b] /\ rep F olo ohi o /\
      (m | value F o - xden [VArr a; VInt b] x).
  Proof.
    intros K A B.
    destruct (kernel_sound _ _ K [VArr a; VInt b]) as (l0 & ws & E & R & W & D).
    { repeat constructor; [apply rep_arg; auto|]. exists b. auto. }
    injection E as <-. destruct (out_len _ _ _ _ _ _ _ HF W A) as [O1 O2].
    exists ws. split; [|split; auto].
    - eapply body_runs; [apply has_fn; exact Hhas|]. intros md cl. rewrite R. simpl. rewrite O1. reflexivity.
    - unfold value. rewrite <- wsum_value. exact D.
  Qed.
End Ops.

Definition B (F : fld) := 2 ^ fl_tb F.
Definition mx (F : fld) := 2 * B F + (fl_C F - 1).
Definition loI64 := - 2 ^ 63.
Definition hiI64 := 2 ^ 63 - 1.
