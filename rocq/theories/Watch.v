(** Proofs for C67. *)
From Coq Require Import ZArith List String Bool Lia.
From Verif Require Import Lang Fields Machine WatchSpec Ops Words Methods Arith History Store.
Import ListNotations.
Local Open Scope Z_scope.

Lemma replace_better m i : Forall2 (fun s t => better s t = true) (replace m i Canonical) m.
Proof. revert i. induction m as [|x m IH]; intros [|i]; cbn [replace]; constructor; auto using better_refl, better_canonical. apply betters_refl. Qed.
Lemma betters_trans l1 l2 l3 : betters l1 l2 -> betters l2 l3 -> betters l1 l3.
Proof.
  intros A. revert l3. induction A as [|x y l l' Q _ IH]; intros l3 B; inversion B; subst; constructor; auto.
  revert Q H1. clear. destruct x, y, y0; intros A B; first [reflexivity|discriminate A|discriminate B].
Qed.
Lemma observer_better F c m n : is_observer c = true -> tracks F c m = Some n -> betters n m.
Proof.
  intros O E. destruct c; try discriminate O; cbn [tracks] in E;
    repeat match type of E with
    | match nth_error m ?i with _ => _ end = _ => destruct (nth_error m i); [|discriminate E]
    | (if ?b then _ else None) = _ => destruct b; [|discriminate E]
    end; injection E as <-; auto using replace_better, betters_refl.
  eapply betters_trans; apply replace_better.
Qed.
Lemma observer_ideal F c i i' : is_observer c = true -> istep F c i = Some i' ->
  ivars i' = ivars i /\ exists o, iseen i' = (iseen i ++ o)%list /\ List.length o = if observes c then 1%nat else 0%nat.
Proof.
  intros O E. destruct c; try discriminate O; cbn [istep] in E;
    repeat match type of E with match nth_error ?m ?i with _ => _ end = _ => destruct (nth_error m i); [|discriminate E] end;
    injection E as <-; cbn [ivars iseen observes]; (split; [reflexivity|]); first [eexists; split; [reflexivity|reflexivity]|exists []; split; [now rewrite app_nil_r|reflexivity]].
Qed.
(** the observations so far only collect what comes *)
Lemma istep_seen F c v o i' : istep F c (mkis v o) = Some i' -> exists o1, List.length o1 = (if observes c then 1%nat else 0%nat) /\
  forall o0, istep F c (mkis v o0) = Some (mkis (ivars i') (o0 ++ o1)%list) /\ iseen i' = (o ++ o1)%list.
Proof.
  intros E. destruct c; cbn [istep ivars iseen observes] in *;
    repeat match type of E with match nth_error ?m ?i with _ => _ end = _ => destruct (nth_error m i); [|discriminate E] end;
    try discriminate E; injection E as <-; cbn [ivars iseen];
    try (exists []; split; [reflexivity|]; intros ?; rewrite !app_nil_r; split; reflexivity).
  all: try (eexists (_ :: nil); split; [reflexivity|]; intros ?; split; reflexivity).
Qed.

Lemma kept_app a b c d : List.length a = List.length c -> kept (a ++ b) (c ++ d) = (kept a c ++ kept b d)%list.
Proof. revert c. induction a as [|x a IH]; intros [|v c] L; try discriminate; cbn in *; auto. rewrite IH by lia. destruct x; reflexivity. Qed.
Lemma kept_one x v : kept [x] [v] = if x then [] else [v].
Proof. destruct x; reflexivity. Qed.
Lemma marks_cons c x p : marks ((c, x) :: p) = ((if observes c then [x] else []) ++ marks p)%list.
Proof. unfold marks. cbn [filter fst]. destruct (observes c); reflexivity. Qed.
Lemma plain_cons c x p : plain ((c, x) :: p) = ((if x then [] else [c]) ++ plain p)%list.
Proof. unfold plain. cbn [filter snd]. destruct x; reflexivity. Qed.

Section Watch.
  Variable F : fld.
  Hypothesis HF : In F all_fields.
  (** the plain ideal execution against the whole one *)
  Lemma watched p : forall m0 m v o o0 i, betters m0 m -> extras_ok F p m -> ideal F (plain p) (mkis v o) = Some i ->
    (exists s, sim F m0 s (mkis v o0)) ->
    exists n j e, tracks_all F (whole p) m0 = Some n /\ ideal F (whole p) (mkis v o0) = Some j /\
      ivars j = ivars i /\ iseen j = (o0 ++ e)%list /\ List.length e = List.length (marks p) /\ iseen i = (o ++ kept (marks p) e)%list.
  Proof.
    induction p as [|[c x] p IH]; intros m0 m v o o0 i L X I (s & S).
    - cbn in I. injection I as <-. exists m0, (mkis v o0), []. cbn. rewrite !app_nil_r. auto 10.
    - rewrite marks_cons. rewrite plain_cons in I. cbn [whole map fst]. fold (whole p). cbn [tracks_all ideal]. destruct x; cbn [extras_ok app] in *.
      + destruct X as (O & T & X). destruct (tracks F c m) as [m1|] eqn:E; [|contradiction (T eq_refl)].
        destruct (tracks_better F c m0 m m1 L E) as (n0 & E0 & L0). rewrite E0.
        destruct (step_tracks F HF c m0 n0 s (mkis v o0) E0 S) as (s1 & i1 & R1 & I1 & S1). rewrite I1.
        destruct (observer_ideal F c _ _ O I1) as (V1 & o1 & Q1 & Lo). cbn [ivars iseen] in *. destruct i1 as [v1 q1]. cbn [ivars iseen] in *. subst v1 q1.
        destruct (IH n0 m v o (o0 ++ o1)%list i) as (n & j & e & A1 & A2 & A3 & A4 & A5 & A6); auto.
        { eapply betters_trans; [|exact L]. eapply observer_better; eauto. }
        { exists s1. exact S1. }
        exists n, j, (o1 ++ e)%list. split; [exact A1|]. split; [exact A2|]. split; [exact A3|]. split; [now rewrite A4, app_assoc|].
        split; [rewrite !app_length, A5, Lo; destruct (observes c); reflexivity|]. rewrite A6. f_equal.
        rewrite kept_app by (rewrite Lo; destruct (observes c); reflexivity).
        destruct (observes c); [destruct o1 as [|y [|]]; try discriminate Lo; reflexivity|destruct o1; [reflexivity|discriminate Lo]].
      + destruct X as (m1 & E & X). destruct (tracks_better F c m0 m m1 L E) as (n0 & E0 & L0). rewrite E0.
        cbn [ideal] in I. destruct (istep F c (mkis v o)) as [i1|] eqn:I1; [|discriminate].
        destruct (istep_seen F c v o i1 I1) as (o1 & Lo & Q). destruct (Q o0) as [Q1 Q2]. rewrite Q1.
        destruct (step_tracks F HF c m0 n0 s (mkis v o0) E0 S) as (s1 & i1' & R1 & I1' & S1). rewrite Q1 in I1'. injection I1' as <-.
        destruct i1 as [v1 q1]. cbn [ivars iseen] in *. subst q1.
        destruct (IH n0 m1 v1 (o ++ o1)%list (o0 ++ o1)%list i) as (n & j & e & A1 & A2 & A3 & A4 & A5 & A6); auto.
        { exists s1. exact S1. }
        exists n, j, (o1 ++ e)%list. split; [exact A1|]. split; [exact A2|]. split; [exact A3|]. split; [now rewrite A4, app_assoc|].
        split; [rewrite !app_length, A5, Lo; destruct (observes c); reflexivity|]. rewrite A6, <- app_assoc. f_equal.
        rewrite kept_app by (rewrite Lo; destruct (observes c); reflexivity). f_equal.
        destruct (observes c); [destruct o1 as [|y [|]]; try discriminate Lo; reflexivity|destruct o1; [reflexivity|discriminate Lo]].
  Qed.
End Watch.
Lemma transparent F p m : In F all_fields -> tracks_all F (plain p) [] = Some m -> extras_ok F p [] ->
  exists s t, (forall md, run md F (plain p) start = Ok s) /\ (forall md, run md F (whole p) start = Ok t) /\
    List.length (seen t) = List.length (marks p) /\ kept (marks p) (seen t) = seen s /\
    Forall2 (fun a b => eqmod F (value F a) (value F b)) (vars t) (vars s).
Proof.
  intros H E X.
  assert (S0 : sim F [] start istart) by (split; [|split]; constructor).
  destruct (run_tracks F H _ [] m start istart E S0) as (s & i & R & I & A & Bb & C).
  destruct (watched F H p [] [] [] [] [] i) as (n & j & e & A1 & A2 & A3 & A4 & A5 & A6); [constructor|exact X|exact I|exists start; exact S0|].
  destruct (run_tracks F H _ [] n start istart A1 S0) as (t & j' & R' & I' & A' & Bb' & C').
  assert (j' = j) by (unfold istart in I'; congruence). subst j'. exists s, t. split; [exact R|]. split; [exact R'|].
  cbn [app] in *. rewrite C', A4, C, A6. split; [exact A5|]. split; [reflexivity|].
  rewrite A3 in Bb'. clear -Bb Bb'. revert Bb. generalize (vars s). induction Bb' as [|a x l xs Q _ IH]; intros l0 K; inversion K; subst; constructor; auto. unfold eqmod in *. congruence.
Qed.

(** a case for C67 *)
Definition watch_example : list (instr * bool) :=
  [(IUnpacked (repeat 255%Z 32), false); (IHex true 0, true); (IConst MinusOne, false); (IOp Mul 0 1, false); (IPacked 2, true); (IEq 0 2, true);
   (IOp Sub 2 1, false); (IPacked 3, false); (IBit 3 7%Z, true); (INormalize 2, true); (IUn Square 3, false); (IPacked 4, false)]%nat.

(** ** Congruent variables (C68) *)
Lemma ideal_seen F p : forall v o i, ideal F p (mkis v o) = Some i -> exists o1, iseen i = (o ++ o1)%list /\
  forall o0, ideal F p (mkis v o0) = Some (mkis (ivars i) (o0 ++ o1)%list).
Proof.
  induction p as [|c p IH]; intros v o i E; cbn [ideal] in *.
  - injection E as <-. exists []. cbn [ivars iseen]. split; [now rewrite app_nil_r|]. intros o0. now rewrite app_nil_r.
  - destruct (istep F c (mkis v o)) as [i1|] eqn:E1; [|discriminate]. destruct (istep_seen F c v o i1 E1) as (o1 & _ & Q).
    destruct i1 as [v1 q1]. destruct (Q o) as [_ Q2]. cbn [ivars iseen] in *. subst q1.
    destruct (IH v1 _ i E) as (o2 & A & Bb). exists (o1 ++ o2)%list. split; [now rewrite A, app_assoc|].
    intros o0. destruct (Q o0) as [Q1 _]. rewrite Q1, Bb. now rewrite app_assoc.
Qed.
Lemma indistinguishable F p m1 m2 n1 n2 s1 s2 : In F all_fields ->
  tracks_all F p m1 = Some n1 -> tracks_all F p m2 = Some n2 ->
  Forall2 (has_shape F) m1 (vars s1) -> Forall2 (has_shape F) m2 (vars s2) ->
  Forall2 (fun a b => eqmod F (value F a) (value F b)) (vars s1) (vars s2) ->
  exists t1 t2 obs, (forall md, run md F p s1 = Ok t1) /\ (forall md, run md F p s2 = Ok t2) /\
    seen t1 = (seen s1 ++ obs)%list /\ seen t2 = (seen s2 ++ obs)%list /\
    Forall2 (fun a b => eqmod F (value F a) (value F b)) (vars t1) (vars t2).
Proof.
  intros H E1 E2 A1 A2 V. set (v := map (value F) (vars s1)).
  assert (S1 : sim F m1 s1 (mkis v (seen s1))).
  { split; [exact A1|]. split; [|reflexivity]. cbn [ivars]. unfold v. generalize (vars s1). intros l. induction l; constructor; auto. reflexivity. }
  assert (S2 : sim F m2 s2 (mkis v (seen s2))).
  { split; [exact A2|]. split; [|reflexivity]. cbn [ivars]. unfold v. clear -V. induction V as [|a b l l' Q _ IH]; constructor; auto. unfold eqmod in *. congruence. }
  destruct (run_tracks F H p m1 n1 s1 _ E1 S1) as (t1 & i1 & R1 & I1 & B1 & W1 & C1).
  destruct (run_tracks F H p m2 n2 s2 _ E2 S2) as (t2 & i2 & R2 & I2 & B2 & W2 & C2).
  destruct (ideal_seen F p v _ i1 I1) as (obs & O1 & Q). rewrite (Q (seen s2)) in I2. injection I2 as <-. cbn [ivars iseen] in *.
  exists t1, t2, obs. split; [exact R1|]. split; [exact R2|]. split; [congruence|]. split; [exact C2|].
  clear -W1 W2. revert W2. generalize (vars t2). induction W1 as [|a x l xs Q _ IH]; intros l0 K; inversion K; subst; constructor; auto. unfold eqmod in *. congruence.
Qed.
Lemma two_encodings F : In F all_fields ->
  exists a b sa sb, produced F a /\ produced F b /\ eqmod F (value F a) (value F b) /\
    run Debug F [IPacked 0] (mkst [a] []) = Ok sa /\ run Debug F [IPacked 0] (mkst [b] []) = Ok sb /\ seen sa <> seen sb.
Proof.
  intros H. exists (to_words F (- 2 ^ nbits F)), (to_words F (modulus F - fl_C F)).
  destruct H as [<-|[<-|[<-|[<-|[<-|[<-|[<-|[<-|[<-|[]]]]]]]]]];
    (eexists; eexists; split; [show_rep|]; split; [show_rep|]; split; [reflexivity|]; split; [vm_compute; reflexivity|]; split; [vm_compute; reflexivity|]; vm_compute; discriminate).
Qed.
