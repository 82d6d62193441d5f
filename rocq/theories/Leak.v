(** Proofs for the programs of C40. *)
From Coq Require Import ZArith List String Bool Lia.
From Verif Require Import Lang Fields Machine EdwardsSpec CurveSpec TraceSpec Trace LeakSpec ShapeSpec Shape Modes.
Import ListNotations.
Local Open Scope string_scope.
Local Open Scope Z_scope.

(** ** [call_of] is the only call of an instruction *)
Lemma step_calls c s f vs : call_of c s = Some (f, vs) ->
  exists k, forall md F, step md F c s = bind (rust_call md (fl_tbl F) f vs) k.
Proof.
  intros E. destruct c; cbn [call_of step] in *; unfold var;
    repeat match type of E with match nth_error ?l ?i with _ => _ end = _ => destruct (nth_error l i); [|discriminate E]; cbn [bind] end;
    injection E as <- <-; eexists; intros md F; unfold new_var, set_var, see, see2, see_text; reflexivity.
Qed.
Lemma pstep_calls c st f vs : pcall_of c st = Some (f, vs) ->
  exists k, forall md C, pstep md C c st = bind (rust_call md (cv_tbl C) f vs) k.
Proof.
  intros E. destruct c; cbn [pcall_of pstep] in *; unfold pvar;
    repeat match type of E with match nth_error ?l ?i with _ => _ end = _ => destruct (nth_error l i); [|discriminate E]; cbn [bind] end;
    injection E as <- <-; eexists; intros md C; unfold new_point, set_point; reflexivity.
Qed.
Lemma bind_ok {A B} (r : res A) (k : A -> res B) b : bind r k = Ok b -> exists a, r = Ok a.
Proof. destruct r; try discriminate. eauto. Qed.

(** ** Field values *)
Definition creates (c : instr) : bool :=
  match c with IConst _ | IUnpacked _ | IRand _ | IOp _ _ _ | ISmall _ _ _ | IUn _ _ | INeg _ | ILegendre _ | ISqrt _ => true | _ => false end.
Ltac taken := repeat match goal with
  | H : Stuck = Ok _ |- _ => discriminate H
  | H : Panic = Ok _ |- _ => discriminate H
  | H : Ok _ = Ok _ |- _ => injection H as <-
  | H : match ?x with _ => _ end = Ok _ |- _ => destruct x
  | H : bind ?x _ = Ok _ |- _ => destruct x; cbn [bind] in H
  end.
Lemma step_length md F c s s' : step md F c s = Ok s' -> List.length (vars s') = (if creates c then S (List.length (vars s)) else List.length (vars s)).
Proof.
  intros E.
  assert (N : forall r, new_var s r = Ok s' -> List.length (vars s') = S (List.length (vars s))).
  { intros r H. unfold new_var in H. taken. cbn [vars]. rewrite app_length. cbn. lia. }
  assert (T : forall i r, set_var s i r = Ok s' -> List.length (vars s') = List.length (vars s)).
  { intros i r H. unfold set_var in H. taken. cbn [vars]. apply replace_length. }
  assert (V : forall i r, see s i r = Ok s' -> List.length (vars s') = List.length (vars s)).
  { intros i r H. unfold see in H. taken. cbn [vars]. apply replace_length. }
  assert (W : forall i j r, see2 s i j r = Ok s' -> List.length (vars s') = List.length (vars s)).
  { intros i j r H. unfold see2 in H. taken. cbn [vars]. now rewrite !replace_length. }
  assert (X : forall r, see_text s r = Ok s' -> List.length (vars s') = List.length (vars s)).
  { intros r H. unfold see_text in H. taken. reflexivity. }
  destruct c; cbn [step creates] in *;
    repeat match type of E with bind (var s ?i) _ = _ => destruct (var s i); cbn [bind] in E; [|discriminate E|discriminate E] end; eauto.
Qed.
Lemma same_creates c d : same_text c d -> creates c = creates d.
Proof. destruct c, d; cbn; intros H; try discriminate H; reflexivity. Qed.

Lemma i64_length F a b : is_i64s F a -> is_i64s F b -> List.length a = List.length b.
Proof. intros [A _] [B _]. congruence. Qed.
Lemma pick F s i : (i < List.length (vars s))%nat -> Forall (is_i64s F) (vars s) -> exists a, nth_error (vars s) i = Some a /\ is_i64s F a.
Proof.
  intros H K. destruct (nth_error (vars s) i) as [a|] eqn:E; [|apply nth_error_None in E; lia].
  exists a. split; [reflexivity|]. apply nth_error_In in E. rewrite Forall_forall in K. auto.
Qed.
Lemma calls_alike F c d p q s t : same_text c d -> formed F (c :: p) (List.length (vars s)) -> formed F (d :: q) (List.length (vars t)) ->
  Forall (is_i64s F) (vars s) -> Forall (is_i64s F) (vars t) ->
  exists f vs ws, call_of c s = Some (f, vs) /\ call_of d t = Some (f, ws) /\ f <> "F::Debug::fmt" /\ alike f vs ws.
Proof.
  intros T H1 H2 K1 K2.
  assert (G : forall i, (i < List.length (vars s))%nat -> (i < List.length (vars t))%nat -> exists a b, nth_error (vars s) i = Some a /\ nth_error (vars t) i = Some b /\ List.length a = List.length b).
  { intros i L1 L2. destruct (pick F s i L1 K1) as (a & E1 & A). destruct (pick F t i L2 K2) as (b & E2 & Bb). exists a, b. split; [exact E1|]. split; [exact E2|]. eapply i64_length; eauto. }
  destruct c, d; cbn [same_text] in T; try discriminate T; try (injection T; intros; subst; clear T); try match type of T with _ /\ _ => destruct T; subst end;
    cbn [formed call_of] in *; repeat match goal with H : _ /\ _ |- _ => destruct H end;
    repeat match goal with L1 : (?i < List.length (vars s))%nat, L2 : (?i < List.length (vars t))%nat |- _ =>
      let a := fresh "a" in let b := fresh "b" in let E1 := fresh in let E2 := fresh in let E3 := fresh in
      destruct (G i L1 L2) as (a & b & E1 & E2 & E3); rewrite ?E1, ?E2; clear L1 end;
    (eexists; eexists; eexists; split; [reflexivity|]; split; [reflexivity|]; split;
      [repeat match goal with x : const |- _ => destruct x | x : binop |- _ => destruct x | x : smallop |- _ => destruct x | x : unop |- _ => destruct x | x : bool |- _ => destruct x end; discriminate|];
      split; [repeat (apply Forall2_cons || apply Forall2_nil); cbn [same_shape]; auto|
        intros TB; first [reflexivity|exfalso; revert TB; unfold takes_bit_number;
          repeat match goal with x : const |- _ => destruct x | x : binop |- _ => destruct x | x : smallop |- _ => destruct x | x : unop |- _ => destruct x | x : bool |- _ => destruct x end; intros [Q|Q]; discriminate Q]]).
Qed.
Lemma step_release md F c s s' : step md F c s = Ok s' -> step Release F c s = Ok s'.
Proof.
  intros E. destruct md; [|exact E]. destruct (programs_cut F [c] s) as [P|P]; cbn [run] in P; rewrite E in P; cbn [bind] in P; [discriminate|].
  destruct (step Release F c s); cbn [bind] in P; congruence.
Qed.
Lemma program_same F md p : In F all_fields -> forall q s t s' t', Forall2 same_text p q ->
  List.length (vars s) = List.length (vars t) -> formed F p (List.length (vars s)) -> formed F q (List.length (vars t)) ->
  Forall (is_i64s F) (vars s) -> Forall (is_i64s F) (vars t) -> run md F p s = Ok s' -> run md F q t = Ok t' ->
  program_trace md F p s = program_trace md F q t.
Proof.
  intros I. induction p as [|c p IH]; intros q s t s' t' T L H1 H2 K1 K2 R1 R2; inversion T as [|? d ? q' T1 T2]; subst; [reflexivity|].
  cbn [run program_trace] in *. destruct (calls_alike F c d p q' s t T1 H1 H2 K1 K2) as (f & vs & ws & E1 & E2 & N & A).
  destruct (bind_ok _ _ _ R1) as (s1 & S1). destruct (bind_ok _ _ _ R2) as (t1 & S2). rewrite S1 in *. rewrite S2 in *. cbn [bind] in *. rewrite E1, E2. cbn [call_trace].
  assert (Q : trace md (fl_tbl F) f vs = trace md (fl_tbl F) f ws).
  { destruct (step_calls c s f vs E1) as (k1 & B1). destruct (step_calls d t f ws E2) as (k2 & B2). rewrite B1 in S1. rewrite B2 in S2.
    destruct (bind_ok _ _ _ S1) as (r1 & C1). destruct (bind_ok _ _ _ S2) as (r2 & C2). destruct (field_ok F I) as (F1 & F2). eapply (completed_same _ F1 F2); eauto. }
  rewrite Q. f_equal. destruct (step_holds F c p s I H1 K1) as (s2 & S3 & H3 & K3). rewrite (step_release _ _ _ _ _ S1) in S3. injection S3 as <-.
  destruct (step_holds F d q' t I H2 K2) as (t2 & S4 & H4 & K4). rewrite (step_release _ _ _ _ _ S2) in S4. injection S4 as <-.
  eapply IH; eauto. rewrite (step_length _ _ _ _ _ S1), (step_length _ _ _ _ _ S2), (same_creates _ _ T1), L. reflexivity.
Qed.
Lemma program_release F p q s t : In F all_fields -> Forall2 same_text p q ->
  List.length (vars s) = List.length (vars t) -> formed F p (List.length (vars s)) -> formed F q (List.length (vars t)) ->
  Forall (is_i64s F) (vars s) -> Forall (is_i64s F) (vars t) -> program_trace Release F p s = program_trace Release F q t.
Proof.
  intros I T L H1 H2 K1 K2. destruct (programs_run F p I s H1 K1) as (s' & R1 & _). destruct (programs_run F q I t H2 K2) as (t' & R2 & _).
  eapply program_same; eauto.
Qed.

(** ** Points *)
Definition pcreates (c : pinstr) : bool := match c with PZero | PAdd _ _ | PDoubled _ | PTripled _ => true | _ => false end.
Lemma pstep_length md C c st st' : pstep md C c st = Ok st' -> List.length st' = (if pcreates c then S (List.length st) else List.length st).
Proof.
  intros E.
  assert (N : forall r, new_point st r = Ok st' -> List.length st' = S (List.length st)).
  { intros r H. unfold new_point in H. taken. rewrite app_length. cbn. lia. }
  assert (T : forall i r, set_point st i r = Ok st' -> List.length st' = List.length st).
  { intros i r H. unfold set_point in H. taken. apply set_nth_length. }
  destruct c; cbn [pstep pcreates] in *;
    repeat match type of E with bind (pvar st ?i) _ = _ => destruct (pvar st i); cbn [bind] in E; [|discriminate E|discriminate E] end; eauto.
Qed.
Lemma psame_creates c d : same_point_text c d -> pcreates c = pcreates d.
Proof. destruct c, d; cbn; intros H; try discriminate H; reflexivity. Qed.
Lemma pick_point C st i : (i < List.length st)%nat -> Forall (each (is_i64s (cv_fld C))) st -> exists P, nth_error st i = Some P /\ each (is_i64s (cv_fld C)) P.
Proof.
  intros H K. destruct (nth_error st i) as [a|] eqn:E; [|apply nth_error_None in E; lia].
  exists a. split; [reflexivity|]. apply nth_error_In in E. rewrite Forall_forall in K. auto.
Qed.
Lemma coords_alike C P Q : each (is_i64s (cv_fld C)) P -> each (is_i64s (cv_fld C)) Q -> Forall2 same_shape (coords P) (coords Q).
Proof.
  intros (x & y & z & t & -> & X1 & X2 & X3 & X4) (x' & y' & z' & t' & -> & Y1 & Y2 & Y3 & Y4). unfold coords. cbn [eX eY eZ eT].
  repeat (apply Forall2_cons || apply Forall2_nil); cbn [same_shape]; eapply i64_length; eauto.
Qed.
Lemma pcalls_alike C c d p q s t : same_point_text c d -> pformed C (c :: p) (List.length s) -> pformed C (d :: q) (List.length t) ->
  Forall (each (is_i64s (cv_fld C))) s -> Forall (each (is_i64s (cv_fld C))) t ->
  exists f vs ws, pcall_of c s = Some (f, vs) /\ pcall_of d t = Some (f, ws) /\ f <> "F::Debug::fmt" /\ alike f vs ws.
Proof.
  intros T H1 H2 K1 K2.
  assert (G : forall i, (i < List.length s)%nat -> (i < List.length t)%nat -> exists a b, nth_error s i = Some a /\ nth_error t i = Some b /\ Forall2 same_shape (coords a) (coords b)).
  { intros i L1 L2. destruct (pick_point C s i L1 K1) as (a & E1 & A). destruct (pick_point C t i L2 K2) as (b & E2 & Bb). exists a, b. split; [exact E1|]. split; [exact E2|]. eapply coords_alike; eauto. }
  destruct c, d; cbn [same_point_text] in T; try discriminate T; try (injection T; intros; subst; clear T); subst;
    cbn [pformed pcall_of] in *; repeat match goal with H : _ /\ _ |- _ => destruct H end;
    repeat match goal with L1 : (?i < List.length s)%nat, L2 : (?i < List.length t)%nat |- _ =>
      let a := fresh "a" in let b := fresh "b" in let E1 := fresh in let E2 := fresh in let E3 := fresh in
      destruct (G i L1 L2) as (a & b & E1 & E2 & E3); rewrite ?E1, ?E2; clear L1 end;
    (eexists; eexists; eexists; split; [reflexivity|]; split; [reflexivity|]; split; [discriminate|];
      split; [|intros [Q|Q]; discriminate Q];
      repeat (apply Forall2_app || assumption || apply Forall2_cons || apply Forall2_nil); cbn [same_shape]; eapply i64_length; eauto).
Qed.
Lemma pstep_release md C c s s' : pstep md C c s = Ok s' -> pstep Release C c s = Ok s'.
Proof.
  intros E. destruct md; [|exact E]. destruct (point_programs_cut C [c] s) as [P|P]; cbn [prun] in P; rewrite E in P; cbn [bind] in P; [discriminate|].
  destruct (pstep Release C c s); cbn [bind] in P; congruence.
Qed.
Lemma point_program_same C md p : In C all_curves -> forall q s t s' t', Forall2 same_point_text p q ->
  List.length s = List.length t -> pformed C p (List.length s) -> pformed C q (List.length t) ->
  Forall (each (is_i64s (cv_fld C))) s -> Forall (each (is_i64s (cv_fld C))) t -> prun md C p s = Ok s' -> prun md C q t = Ok t' ->
  point_program_trace md C p s = point_program_trace md C q t.
Proof.
  intros I. induction p as [|c p IH]; intros q s t s' t' T L H1 H2 K1 K2 R1 R2; inversion T as [|? d ? q' T1 T2]; subst; [reflexivity|].
  cbn [prun point_program_trace] in *. destruct (pcalls_alike C c d p q' s t T1 H1 H2 K1 K2) as (f & vs & ws & E1 & E2 & N & A).
  destruct (bind_ok _ _ _ R1) as (s1 & S1). destruct (bind_ok _ _ _ R2) as (t1 & S2). rewrite S1 in *. rewrite S2 in *. cbn [bind] in *. rewrite E1, E2. cbn [call_trace].
  assert (Q : trace md (cv_tbl C) f vs = trace md (cv_tbl C) f ws).
  { destruct (pstep_calls c s f vs E1) as (k1 & B1). destruct (pstep_calls d t f ws E2) as (k2 & B2). rewrite B1 in S1. rewrite B2 in S2.
    destruct (bind_ok _ _ _ S1) as (r1 & C1). destruct (bind_ok _ _ _ S2) as (r2 & C2). destruct (curve_ok C I) as (F1 & F2). eapply (completed_same _ F1 F2); eauto. }
  rewrite Q. f_equal. destruct (pstep_holds C c p s I H1 K1) as (s2 & S3 & H3 & K3). rewrite (pstep_release _ _ _ _ _ S1) in S3. injection S3 as <-.
  destruct (pstep_holds C d q' t I H2 K2) as (t2 & S4 & H4 & K4). rewrite (pstep_release _ _ _ _ _ S2) in S4. injection S4 as <-.
  eapply IH; eauto. rewrite (pstep_length _ _ _ _ _ S1), (pstep_length _ _ _ _ _ S2), (psame_creates _ _ T1), L. reflexivity.
Qed.
Lemma point_program_release C p q s t : In C all_curves -> Forall2 same_point_text p q ->
  List.length s = List.length t -> pformed C p (List.length s) -> pformed C q (List.length t) ->
  Forall (each (is_i64s (cv_fld C))) s -> Forall (each (is_i64s (cv_fld C))) t -> point_program_trace Release C p s = point_program_trace Release C q t.
Proof.
  intros I T L H1 H2 K1 K2. destruct (point_programs_run C p I s H1 K1) as (s' & R1 & _). destruct (point_programs_run C q I t H2 K2) as (t' & R2 & _).
  eapply point_program_same; eauto.
Qed.

(** ** Every call is seen *)
Lemma program_seen md F c p : forall s s', run md F p s = Ok s' -> program_trace md F (p ++ [c])%list s = (program_trace md F p s ++ call_trace md (fl_tbl F) (call_of c s'))%list.
Proof.
  induction p as [|d p IH]; intros s s' R; cbn [run app program_trace] in *.
  - injection R as ->. destruct (step md F c s'); apply app_nil_r.
  - destruct (step md F d s) as [s1| |]; cbn [bind] in R; try discriminate R. rewrite (IH _ _ R). apply app_assoc.
Qed.
Lemma point_program_seen md C c p : forall s s', prun md C p s = Ok s' -> point_program_trace md C (p ++ [c])%list s = (point_program_trace md C p s ++ call_trace md (cv_tbl C) (pcall_of c s'))%list.
Proof.
  induction p as [|d p IH]; intros s s' R; cbn [prun app point_program_trace] in *.
  - injection R as ->. destruct (pstep md C c s'); apply app_nil_r.
  - destruct (pstep md C d s) as [s1| |]; cbn [bind] in R; try discriminate R. rewrite (IH _ _ R). apply app_assoc.
Qed.
