(** A run of the curve code that meets no wrong field result computes the
    published formulas (C58): the field code with wrong results replaced by right
    ones is lawful, and the two agree until a result is wrong. *)
From Coq Require Import ZArith Znumtheory List String Lia Bool.
From Verif Require Import Lang Quick Poly Kernel Fields Kfacts Ops Words Codec Normalize Methods Surface Forms Arith Observe NumTheory Safe History Primes Roots Zp
  Refute EdwardsSpec EdwardsAlg Edwards Lawful CurveSpec Curves CurveRefute Guarded CheckedSpec Trace Modes.
From Verif Require Src_edwards Src_curves.
Import ListNotations.
Local Open Scope string_scope.
Local Open Scope Z_scope.
Local Open Scope list_scope.

(** ** A base that answers more *)
Definition below {A} (r r' : res A) : Prop := forall a, r = Ok a -> r' = Ok a.
Lemma below_refl {A} (r : res A) : below r r. Proof. intros a E. exact E. Qed.
Lemma below_bind {A B} (r r' : res A) (f g : A -> res B) : below r r' -> (forall a, below (f a) (g a)) -> below (bind r f) (bind r' g).
Proof. intros H K b E. destruct r as [a| |]; try discriminate E. rewrite (H a eq_refl). cbn [bind] in *. now apply K. Qed.
Ltac bel := repeat (first [assumption | apply below_refl | apply below_bind; [|intros] ]).
Section Below.
  Variable md : mode.
  Variables c c' : string -> list val -> res (list val * list val).
  Hypothesis H : forall f vs, below (c f vs) (c' f vs).
  Lemma exec_below s : forall en, below (exec md c s en) (exec md c' s en).
  Proof.
    induction s using stmt_rect'; intros en; rewrite ?exec_for; cbn [exec]; try (bel; fail).
    - apply below_bind; [apply below_refl|intros]. apply below_bind; [apply H|intros; apply below_refl].
    - apply below_bind; [apply below_refl|intros a]. apply below_bind; [apply below_refl|intros b].
      assert (G : forall e, below (exec_list md c body e) (exec_list md c' body e)).
      { induction H0 as [|s t Hs Ht IH]; intros e; cbn [exec_list]; [bel|]. apply below_bind; [apply Hs|exact IH]. }
      generalize (Z.to_nat (b - a)). intros n. revert en. generalize a. revert n. induction n as [|n IH]; intros i en; cbn [iter]; [bel|].
      apply below_bind; [apply G|intros e; apply IH].
  Qed.
  Lemma exec_list_below l : forall en, below (exec_list md c l en) (exec_list md c' l en).
  Proof. induction l as [|s t IH]; intros en; cbn [exec_list]; [bel|]. apply below_bind; [apply exec_below|exact IH]. Qed.
  Lemma run_below fn vs : below (run_func md c fn vs) (run_func md c' fn vs).
  Proof. unfold run_func. destruct (Nat.eqb _ _); [|bel]. apply below_bind; [apply exec_list_below|intros en; apply below_refl]. Qed.
End Below.
Lemma call_below md b b' tbl k : (forall f vs, below (b f vs) (b' f vs)) -> forall f vs, below (call md b tbl k f vs) (call md b' tbl k f vs).
Proof.
  intros H. induction k as [|k IH]; intros f vs; cbn [call]; destruct (lookup f tbl); try apply H; [apply below_refl|]. apply run_below. exact IH.
Qed.
Lemma fuel_below md b tbl k : forall j f vs, (k <= j)%nat -> below (call md b tbl k f vs) (call md b tbl j f vs).
Proof.
  induction k as [|k IH]; intros j f vs L; destruct j as [|j]; try lia; cbn [call]; destruct (lookup f tbl); try apply below_refl.
  - intros a E. discriminate E.
  - apply run_below. intros g ws. apply IH. lia.
Qed.

Section Shipped.
Variable C : crv.
Hypothesis HC : In C all_curves.
Let F := cv_fld C.
Let HF : In F all_fields := curve_field C HC.
Let p := cv_p C.
Let v := coordinate C.
Let T := cv_tbl C.

Lemma into md k : forall f vs, below (call md (rust_call md T) Src_edwards.table k f vs) (call md no_base T (k + 16) f vs).
Proof.
  induction k as [|k IH]; intros f vs; cbn [call Nat.add].
  - destruct (lookup f Src_edwards.table); [intros a E; discriminate E|apply below_refl].
  - destruct (lookup f Src_edwards.table) as [fn|] eqn:L.
    + unfold T at 2. rewrite (curve_has_edwards C f fn HC L). fold T. apply run_below. exact IH.
    + change (match lookup f T with Some fn => run_func md (call md no_base T (k + 16)) fn vs | None => no_base f vs end) with (call md no_base T (S (k + 16)) f vs).
      apply fuel_below. lia.
Qed.
Lemma depths : forallb (fun C => forallb (fun fg => depth_le (cv_tbl C) 16 (fst fg)) Src_edwards.table) all_curves = true.
Proof. vm_compute. reflexivity. Qed.
Lemma checked_below f vs : below (checked C f vs) (rust_call Debug T f vs).
Proof.
  intros r E. unfold checked in E. fold T in E. destruct (rust_call Debug T f vs) as [r'| |]; try discriminate E.
  cbn [bind] in E. now destruct (right_result C f vs r').
Qed.
Lemma checked_real f args rets outs : In f (map fst Src_edwards.table) -> checked_runs C f args rets outs -> point_runs C f args rets outs.
Proof.
  intros I R. unfold checked_runs, curve_call in R. assert (D : rust_call Debug T f args = Ok (rets, outs)).
  { apply (call_below _ _ _ _ _ checked_below) in R. apply into in R. unfold rust_call. rewrite <- R. apply (depth_fuel _ _ _ 16); [|lia|lia].
    pose proof (proj1 (forallb_forall _ _) depths C HC) as D. cbv beta in D. rewrite forallb_forall in D. apply in_map_iff in I as (fg & <- & I). apply D. exact I. }
  intros md. destruct md; [exact D|]. destruct (checks_only_panic T f args) as [Q|Q]; unfold T in *; congruence.
Qed.

(** ** The field with wrong results replaced *)
Definition repaired (f : string) (vs : list val) : res (list val * list val) :=
  match checked C f vs with
  | Ok r => Ok r
  | e => match expected C f vs with
         | Some z => Ok ([VArr (to_words F (z mod p))], vs)
         | None => match vs with [a] => if String.eqb f "F::normalize" then Ok ([], [VArr (to_words F (v a mod p))]) else e | _ => e end
         end
  end.
Lemma repaired_above f vs : below (checked C f vs) (repaired f vs).
Proof. intros r E. unfold repaired. now rewrite E. Qed.
Lemma p_pos : 1 < p.
Proof. apply Z.ltb_lt. exact (all_chk (fun F => 1 <? modulus F) ltac:(vm_compute; reflexivity) F HF). Qed.
Lemma words_right z : canonical F (to_words F (z mod p)) /\ eqp p (value F (to_words F (z mod p))) z.
Proof.
  pose proof p_pos as P. split; [now apply (norm_canonical F)|]. rewrite to_words_value by exact HF. unfold eqp. apply Z.mod_mod. lia.
Qed.
Lemma canonical_any l : canonical F l -> any_rep F l.
Proof. intros (T' & _). apply (rep_weaken F 0 (2 ^ fl_tb F - 1)); [exact T'|lia|]. pose proof (Z.leb_le (2 ^ fl_tb F) (2 ^ 63)) as (K & _). specialize (K (all_chk (fun F => 2 ^ fl_tb F <=? 2 ^ 63) ltac:(vm_compute; reflexivity) F HF)). lia. Qed.
Lemma shapedb_any l : shapedb F l = true -> any_rep F l.
Proof.
  intros S. apply repb_ok. unfold repb. unfold shapedb, in_i64 in S. rewrite !andb_true_iff in *. destruct S as ((S1 & S2) & S3 & S4).
  rewrite S1, S2, S3. apply Z.ltb_lt in S4. repeat split; auto. apply Z.leb_le. lia.
Qed.
Lemma reducedb_canonical l : reducedb F l = true -> canonical F l.
Proof.
  intros S. unfold reducedb in S. rewrite !andb_true_iff in S. destruct S as (((S1 & S2) & S3) & S4). apply shapedb_any in S1. destruct S1 as (L & W & _).
  apply Z.leb_le in S2. apply Z.ltb_lt in S3, S4. split; [|exact S4]. split; [exact L|]. split; [exact W|lia].
Qed.
Lemma outs_len f vs rets outs : rust_call Debug T f vs = Ok (rets, outs) -> List.length outs = List.length vs.
Proof. unfold rust_call. cbn [call]. destruct (lookup f T); [|discriminate]. intros E. apply (run_func_len _ _ _ _ _ _ E). Qed.
Lemma same_eqp a b : ((a - b) mod p =? 0) = true -> eqp p a b.
Proof. pose proof p_pos. intros E. apply Z.eqb_eq in E. unfold eqp. apply Z.mod_divide in E; [|lia]. destruct E as (k & E). replace a with (b + k * p) by lia. apply Z.mod_add. lia. Qed.
Lemma arith_law f vs z : expected C f vs = Some z ->
  exists r os, repaired f vs = Ok ([r], os) /\ List.length os = List.length vs /\ field_value C r /\ eqp p (v r) z.
Proof.
  intros E. assert (D : exists r os, Ok ([VArr (to_words F (z mod p))], vs) = Ok ([r], os) /\ List.length os = List.length vs /\ field_value C r /\ eqp p (v r) z).
  { destruct (words_right z) as (K & V). eexists _, _. split; [reflexivity|]. split; [reflexivity|]. split; [eexists; split; [reflexivity|now apply canonical_any]|exact V]. }
  unfold repaired. rewrite E. destruct (checked C f vs) as [r| |] eqn:K; try exact D. clear D.
  unfold checked in K. fold T in K. destruct (rust_call Debug T f vs) as [(rets, outs)| |] eqn:R; try discriminate K. cbn [bind] in K.
  destruct (right_result C f vs (rets, outs)) eqn:Q; [|discriminate K]. injection K as <-. unfold right_result in Q. rewrite E in Q. cbn [fst] in Q.
  destruct rets as [|[|o] [|]]; try discriminate Q. apply andb_true_iff in Q as (Q1 & Q2).
  exists (VArr o), outs. split; [reflexivity|]. split; [eapply outs_len; exact R|]. split; [exists o; split; [reflexivity|now apply shapedb_any]|now apply same_eqp].
Qed.
Lemma two (os : list val) (a b : val) : List.length os = List.length [a; b] -> exists x y, os = [x; y].
Proof. destruct os as [|x [|y [|]]]; try discriminate. eauto. Qed.
Lemma one (os : list val) (a : val) : List.length os = List.length [a] -> exists x, os = [x].
Proof. destruct os as [|x [|]]; try discriminate. eauto. Qed.
Lemma other f vs r : expected C f vs = None -> String.eqb f "F::normalize" = false -> rust_call Debug T f vs = Ok r -> repaired f vs = Ok r.
Proof. intros E N R. apply repaired_above. unfold checked. fold T. rewrite R. cbn [bind]. unfold right_result. rewrite E, N. reflexivity. Qed.
Lemma real n f args rets outs : (n <= 8)%nat -> has f F = true -> runsd n F f args rets outs -> rust_call Debug T f args = Ok (rets, outs).
Proof. intros N H R. exact (up C HC n f args rets outs N H R (Debug, 8%nat)). Qed.
Ltac hs := apply has_all; [exact HC|vm_compute; reflexivity].

Lemma repaired_lawful : lawful p (cv_d C) (nbits F) (field_value C) (canonical_value C) v (mask_val C) repaired.
Proof.
  destruct (const_body F HF) as (B1 & B2 & _ & _ & B5 & _). destruct (lits_ok F HF) as (L0 & L1 & _).
  constructor.
  - intros a b (x & -> & X) (y & -> & Y). destruct (arith_law "F::mul(F)" [VArr x; VArr y] _ eq_refl) as (r & os & E & L & O & V).
    destruct (two _ _ _ L) as (u & w & ->). exists r, u, w. auto.
  - intros a b (x & -> & X) (y & -> & Y). destruct (arith_law "F::add(F)" [VArr x; VArr y] _ eq_refl) as (r & os & E & L & O & V).
    destruct (two _ _ _ L) as (u & w & ->). exists r, u, w. auto.
  - intros a b (x & -> & X) (y & -> & Y). destruct (arith_law "F::sub(F)" [VArr x; VArr y] _ eq_refl) as (r & os & E & L & O & V).
    destruct (two _ _ _ L) as (u & w & ->). exists r, u, w. auto.
  - intros a (x & -> & X). destruct (arith_law "F::squared" [VArr x] _ eq_refl) as (r & os & E & L & O & V).
    destruct (one _ _ L) as (u & ->). exists r, u. auto.
  - intros a (x & -> & X). destruct (arith_law "F::small_mul" [VArr x; VInt 2] _ eq_refl) as (r & os & E & L & O & V).
    destruct (two _ _ _ L) as (u & w & ->). exists r, u, w. auto.
  - exists (VArr (to_words F 0)). split; [apply other; [reflexivity|reflexivity|]; apply (real 1); [lia|hs|]; rewrite <- L0; now apply const_runs|].
    destruct (words_right 0) as (K & V). pose proof p_pos. rewrite Z.mod_small in K, V by lia. split; [eexists; split; [reflexivity|now apply canonical_any]|exact V].
  - exists (VArr (to_words F 1)). split; [apply other; [reflexivity|reflexivity|]; apply (real 1); [lia|hs|]; rewrite <- L1; now apply const_runs|].
    destruct (words_right 1) as (K & V). pose proof p_pos. rewrite Z.mod_small in K, V by lia. split; [eexists; split; [reflexivity|now apply canonical_any]|exact V].
  - destruct (d_right C HC) as (l & R & K & V & _). exists (VArr l). split; [apply other; [reflexivity|reflexivity|exact (R Debug)]|].
    split; [eexists; split; [reflexivity|now apply canonical_any]|exact V].
  - intros a (x & -> & X). assert (D' : exists r, Ok ([] : list val, [VArr (to_words F (v (VArr x) mod p))]) = Ok ([], [r]) /\ field_value C r /\ canonical_value C r /\ eqp p (v r) (v (VArr x))).
    { destruct (words_right (v (VArr x))) as (K & V). eexists. split; [reflexivity|].
      split; [eexists; split; [reflexivity|now apply canonical_any]|]. split; [eexists; split; [reflexivity|exact K]|exact V]. }
    unfold repaired. destruct (checked C "F::normalize" [VArr x]) as [r| |] eqn:K; try exact D'. clear D'.
    unfold checked in K. fold T in K. destruct (rust_call Debug T "F::normalize" [VArr x]) as [(rets, outs)| |] eqn:R; try discriminate K. cbn [bind] in K.
    destruct (right_result C "F::normalize" [VArr x] (rets, outs)) eqn:Q; [|discriminate K]. injection K as <-.
    unfold right_result in Q. cbn [expected String.eqb Ascii.eqb Bool.eqb snd] in Q.
    assert (NR : exists o, rust_call Debug T "F::normalize" [VArr x] = Ok ([], [VArr o])).
    { destruct (norm_any F x HF X) as (o & N & _). exists o. apply (real 4); [lia|hs|exact N]. }
    destruct NR as (o & NR). rewrite NR in R. injection R as <- <-. cbn in Q. apply andb_true_iff in Q as (Q1 & Q2). apply reducedb_canonical in Q1.
    exists (VArr o). split; [reflexivity|]. split; [exists o; split; [reflexivity|now apply canonical_any]|]. split; [exists o; split; [reflexivity|exact Q1]|now apply same_eqp].
  - split; [apply other; [reflexivity|reflexivity|]; apply (real 1); [lia|hs|]; now apply int_runs|].
    assert (K : (0 <? nbits F) && (nbits F <? 2 ^ 31) && (modulus F <=? 2 ^ nbits F) = true) by (apply (all_chk (fun F => (0 <? nbits F) && (nbits F <? 2 ^ 31) && (modulus F <=? 2 ^ nbits F))); [vm_compute; reflexivity|exact HF]).
    rewrite !andb_true_iff in K. destruct K as ((K1 & K2) & K3). apply Z.leb_le in K3. split; [lia|exact K3].
  - intros a i _ (x & -> & X) I. pose proof (bit_normalized_claim F x i HF X ltac:(lia)) as Q. destruct (Z.ltb_spec i (fl_w F * Z.of_nat (fl_n F))) as [B|B].
    2:{ pose proof (bits_enough F HF). lia. }
    exists (VArr x), (VInt i). apply other; [reflexivity|reflexivity|].
    unfold rust_call, T. rewrite (field_call C); [|exact HC|intros N; pose proof (has_all C HC "F::bit_normalized" ltac:(vm_compute; reflexivity)) as H'; unfold has in H'; rewrite N in H'; discriminate H'].
    change (v (VArr x)) with (value F x). replace (value F x mod p) with (value F x) by (symmetry; apply (canonical_mod F x HF X)). exact (Q Debug).
  - intros b. exists (VInt (b2z b)). apply other; [destruct b; reflexivity|reflexivity|]. replace (if b then 1 else 0) with (b2z b) by (destruct b; reflexivity).
    apply (real 1); [lia|hs|]. apply filled_runs; cbn; auto.
  - intros b x0 y0 (x & -> & X) (y & -> & Y). unfold mask_val.
    assert (Lx : List.length x = fl_n F) by apply X. assert (Ly : List.length y = fl_n F) by apply Y.
    pose proof (repeat_length (mask_of b) (fl_n F)) as M1. pose proof (repeat_length (mask_of (negb b)) (fl_n F)) as M2.
    pose proof (repeat_length 0 (fl_n F)) as M0.
    pose proof (bitand_words F x _ HF Lx M1) as R1. pose proof (bitand_words F y _ HF Ly M2) as R2. rewrite zipw_mask in R1, R2 by auto.
    exists (VArr (if b then x else repeat 0 (fl_n F))), (VArr (if negb b then y else repeat 0 (fl_n F))), (VArr (if b then x else y)).
    exists (VArr (repeat (mask_of b) (fl_n F))), (VArr (repeat (mask_of (negb b)) (fl_n F))), (VArr (if negb b then y else repeat 0 (fl_n F))).
    split; [apply other; [reflexivity|reflexivity|]; apply (real 1); [lia|hs|exact R1]|].
    split; [apply other; [reflexivity|reflexivity|]; apply (real 1); [lia|hs|exact R2]|]. split.
    + apply other; [reflexivity|reflexivity|]. apply (real 1); [lia|hs|]. destruct b; cbn [negb].
      * rewrite <- (zipw_or_0_r (fl_n F) x Lx) at 2. apply bitor_words; auto.
      * rewrite <- (zipw_or_0_l (fl_n F) y Ly) at 2. apply bitor_words; auto.
    + split; [destruct b; eexists; split; eauto|]. destruct b; reflexivity.
Qed.

(** ** The claims *)
Let PP : prime p := prime_modulus F HF.
Lemma det f args rets outs r : checked_runs C f args rets outs -> (forall md, curve_call md repaired f args = Ok r) -> r = (rets, outs).
Proof.
  intros R E. specialize (E Debug). apply (call_below _ _ _ _ _ repaired_above) in R. unfold curve_call in E. rewrite R in E. now injection E.
Qed.
Lemma coords_inj P Q : coords P = coords Q -> P = Q.
Proof. destruct P, Q. unfold coords. cbn. intros E. injection E as -> -> -> ->. reflexivity. Qed.
Lemma coords_app P Q l m : coords P ++ l = coords Q ++ m -> P = Q /\ l = m.
Proof. destruct P, Q. unfold coords. cbn. intros E. injection E as -> -> -> -> ->. auto. Qed.
Lemma sum_checked P Q f rets outs : all_ok (field_value C) P -> all_ok (field_value C) Q ->
  In f ["P::add_assign(&P)"; "P::add_assign(P)"; "(&P)::add(&P)"; "P::add(P)"] -> checked_runs C f (coords P ++ coords Q) rets outs ->
  exists R, all_ok (field_value C) R /\
    (if existsb (String.eqb f) ["P::add_assign(&P)"; "P::add_assign(P)"] then rets = [] /\ outs = coords R ++ coords Q
     else rets = coords R /\ outs = coords P ++ coords Q) /\
    residues p v R = quad_sum p (cv_d C) (residues p v P) (residues p v Q) /\
    (forall A B S, represents C P A -> represents C Q B -> edwards_sum p (cv_d C) A B S -> represents C R S).
Proof.
  intros OP OQ I R. destruct (sum_residues _ _ _ _ _ _ _ _ PP repaired_lawful P Q OP OQ) as (S & K & O & V). exists S. split; [exact O|].
  split; [|split; [exact V|]].
  - destruct I as [<-|[<-|[<-|[<-|[]]]]];
     (eapply det in R; [|intros md; specialize (K md); destruct K as (K1 & K2 & K3 & K4); first [exact K1|exact K2|exact K3|exact K4]]);
     injection R as <- <-; cbn; auto.
  - intros A B U RA RB SU. destruct (add_correct _ _ _ _ _ _ _ _ PP repaired_lawful P Q A B U OP OQ RA RB SU) as (S' & K' & _ & V').
    replace S with S'; [exact V'|]. specialize (K Debug). specialize (K' Debug). destruct K as (K & _). destruct K' as (K' & _). rewrite K in K'. assert (E : coords S ++ coords Q = coords S' ++ coords Q) by congruence.
    symmetry. now apply coords_app in E.
Qed.
Lemma double_checked P f rets outs : all_ok (field_value C) P -> In f ["P::double"; "P::doubled"] -> checked_runs C f (coords P) rets outs ->
  exists R, all_ok (field_value C) R /\
    (if String.eqb f "P::double" then rets = [] /\ outs = coords R else rets = coords R /\ outs = coords P) /\
    residues p v R = quad_double p (residues p v P) /\
    (forall A S, represents C P A -> on_curve p (cv_d C) A -> edwards_sum p (cv_d C) A A S -> represents C R S).
Proof.
  intros OP I R. pose proof OP as (O1 & O2 & O3 & _). destruct (double_residues _ _ _ _ _ _ _ _ PP repaired_lawful P O1 O2 O3) as (S & K & O & V). exists S. split; [exact O|].
  split; [|split; [exact V|]].
  - destruct I as [<-|[<-|[]]];
     (eapply det in R; [|intros md; specialize (K md); destruct K as (K1 & K2); first [exact K1|exact K2]]);
     injection R as <- <-; cbn; auto.
  - intros A U RA OC SU. assert (SX : stands_for_xyz p v P A) by (destruct RA as (R1 & R2 & R3 & _); split; auto).
    destruct (double_correct _ _ _ _ _ _ _ _ PP repaired_lawful P A U O1 O2 O3 SX OC SU) as (S' & K' & _ & V').
    replace S with S'; [exact V'|]. specialize (K Debug). specialize (K' Debug). destruct K as (K & _). destruct K' as (K' & _). rewrite K in K'. assert (E : coords S = coords S') by congruence.
    symmetry. now apply coords_inj.
Qed.
Lemma triple_checked P f rets outs : all_ok (field_value C) P -> In f ["P::triple"; "P::tripled"] -> checked_runs C f (coords P) rets outs ->
  exists R, all_ok (field_value C) R /\
    (if String.eqb f "P::triple" then rets = [] /\ outs = coords R else rets = coords R /\ outs = coords P) /\
    residues p v R = quad_triple p (residues p v P).
Proof.
  intros OP I R. pose proof OP as (O1 & O2 & O3 & _). destruct (triple_residues _ _ _ _ _ _ _ _ PP repaired_lawful P O1 O2 O3) as (S & K & O & V). exists S. split; [exact O|].
  split; [|exact V]. destruct I as [<-|[<-|[]]];
     (eapply det in R; [|intros md; specialize (K md); destruct K as (K1 & K2); first [exact K1|exact K2]]);
     injection R as <- <-; cbn; auto.
Qed.
End Shipped.

(** cases that meet the hypotheses *)
Definition qchecked (C : crv) (f : string) (vs : list val) : res (list val * list val) :=
  bind (quick_call Debug (cv_tbl C) f vs) (fun r => if right_result C f vs r then Ok r else Panic).
Definition goodb (C : crv) (f : string) (args : list val) : bool :=
  match qcall Debug (qchecked C) (of_list Src_edwards.table) 16 f args with Ok _ => true | _ => false end.
Lemma goodb_yes C f args : goodb C f args = true -> exists rets outs, checked_runs C f args rets outs.
Proof.
  unfold goodb, checked_runs. rewrite (qcall_ok Debug (checked C) (qchecked C) Src_edwards.table); [|apply same_of_list|intros; unfold qchecked; now rewrite quick_call_ok].
  fold (curve_call Debug (checked C) f args). destruct (curve_call Debug (checked C) f args) as [[rets outs]| |]; try discriminate. intros _. eauto.
Qed.
Lemma ok_canonical C P : In C all_curves -> canonical_point C P -> all_ok (field_value C) P.
Proof.
  intros HC (x & y & z & t & -> & A & B & D & E). unfold all_ok. cbn [eX eY eZ eT].
  repeat split; (eexists; split; [reflexivity|]); now apply (canonical_any C HC).
Qed.
Definition small_quad : ext := Ext (VArr [1; 0; 0; 0; 0; 0; 0]) (VArr [2; 0; 0; 0; 0; 0; 0]) (VArr [3; 0; 0; 0; 0; 0; 0]) (VArr [5; 0; 0; 0; 0; 0; 0]).
Lemma checked_cases :
  (let P := scaled E_222 wb1 lb1 in let Q := scaled E_222 wb2 lb2 in all_ok (field_value E_222) P /\ all_ok (field_value E_222) Q /\
    represents E_222 P wb1 /\ represents E_222 Q wb2 /\ (exists S, edwards_sum (cv_p E_222) (cv_d E_222) wb1 wb2 S) /\
    exists rets outs, checked_runs E_222 "P::add(P)" (coords P ++ coords Q) rets outs) /\
  (let P := scaled E_222 we le in all_ok (field_value E_222) P /\ represents E_222 P we /\ on_curve (cv_p E_222) (cv_d E_222) we /\
    exists rets outs, checked_runs E_222 "P::double" (coords P) rets outs) /\
  (all_ok (field_value E_382) small_quad /\ exists rets outs, checked_runs E_382 "P::triple" (coords small_quad) rets outs).
Proof.
  assert (H2 : In E_222 all_curves) by (cbn; tauto). assert (H3 : In E_382 all_curves) by (cbn; tauto). cbv zeta. split; [|split].
  - destruct add_two_case as (C1 & C2 & R1 & R2 & S & _). split; [now apply ok_canonical|]. split; [now apply ok_canonical|].
    split; [exact R1|]. split; [exact R2|]. split; [exact S|]. apply goodb_yes. vm_compute. reflexivity.
  - destruct (scaledb_yes E_222 we le ltac:(vm_compute; reflexivity)) as (C1 & R1 & O1). split; [now apply ok_canonical|]. split; [exact R1|]. split; [exact O1|].
    apply goodb_yes. vm_compute. reflexivity.
  - split; [|apply goodb_yes; vm_compute; reflexivity].
    unfold all_ok, small_quad. cbn [eX eY eZ eT]. repeat split; (eexists; split; [reflexivity|]); apply (shapedb_any E_382); try exact H3; vm_compute; reflexivity.
Qed.
