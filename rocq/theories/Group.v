(** The group law through the curve code over a lawful field; the published
    constants. *)
From Coq Require Import ZArith Znumtheory List String Lia Bool.
From Verif Require Import Lang Fields Words NumTheory Zp EdwardsSpec EdwardsAlg GroupLaw Lawful CurveSpec Refute Curves CurveRefute GroupSpec.
Import ListNotations.
Local Open Scope Z_scope.

Section Lawful_group.
Variables (p d nbits : Z) (ok canon : val -> Prop) (den : val -> Z) (mask : bool -> val) (base : string -> list val -> res (list val * list val)).
Hypothesis PR : prime p.
Hypothesis L : lawful p d nbits ok canon den mask base.
Hypothesis N : non_square p d.
Let eqc := eqc p PR.

Lemma stored_same R S A B : stands_for p den R A -> stands_for p den S B -> same_point p A B -> same_stored p den R S.
Proof.
  destruct A as (a, b), B as (a', b'). unfold stands_for, denotes, same_point, same_stored. cbn [fst snd]. rewrite !eqc.
  intros (N1 & X1 & Y1 & _) (N2 & X2 & Y2 & _) (EA & EB). split; [exact N1|split; [exact N2|]].
  rewrite <- X1, <- X2, <- Y1, <- Y2, EA, EB. split; apply cong_eq; ring.
Qed.
Lemma stands_ext R A B : same_point p A B -> stands_for p den R A -> stands_for p den R B.
Proof.
  destruct A as (a, b), B as (a', b'). unfold stands_for, denotes, same_point. cbn [fst snd]. rewrite !eqc.
  intros (EA & EB) (N1 & X1 & Y1 & T). rewrite <- EA, <- EB. auto.
Qed.
Let returned (r : res (list val * list val)) : list val := match r with Ok x => fst x | _ => [] end.
Lemma sum_det P Q R S : sum_calls base P Q R -> sum_calls base P Q S -> R = S.
Proof. intros H K. apply coords_inj. destruct (H Debug) as (_ & _ & _ & A), (K Debug) as (_ & _ & _ & B). rewrite A in B. exact (f_equal returned B). Qed.
Lemma double_det P R S : double_calls base P R -> double_calls base P S -> R = S.
Proof. intros H K. apply coords_inj. destruct (H Debug) as (_ & A), (K Debug) as (_ & B). rewrite A in B. exact (f_equal returned B). Qed.

Lemma add_commutes P Q A B : all_ok ok P -> all_ok ok Q -> on_curve p d A -> on_curve p d B -> stands_for p den P A -> stands_for p den Q B ->
  exists R S, sum_calls base P Q R /\ sum_calls base Q P S /\ same_stored p den R S.
Proof.
  intros OP OQ CA CB SP SQ. destruct (add_complete _ _ _ _ _ _ _ _ PR L P Q A B N OP OQ CA CB SP SQ) as (R & C & R1 & _ & R3 & R4 & _).
  destruct (add_correct _ _ _ _ _ _ _ _ PR L Q P B A C OQ OP SQ SP (sum_comm p PR d A B C R4)) as (S & S1 & _ & S3).
  exists R, S. split; [exact R1|split; [exact S1|]]. eapply stored_same; eauto. apply same_refl.
Qed.
Lemma add_associates P Q R A B C : all_ok ok P -> all_ok ok Q -> all_ok ok R -> on_curve p d A -> on_curve p d B -> on_curve p d C ->
  stands_for p den P A -> stands_for p den Q B -> stands_for p den R C ->
  exists PQ PQ_R QR P_QR, sum_calls base P Q PQ /\ sum_calls base PQ R PQ_R /\ sum_calls base Q R QR /\ sum_calls base P QR P_QR /\
    same_stored p den PQ_R P_QR.
Proof.
  intros OP OQ OR CA CB CC SP SQ SR.
  destruct (add_complete _ _ _ _ _ _ _ _ PR L P Q A B N OP OQ CA CB SP SQ) as (PQ & AB & E1 & O1 & S1 & U1 & C1).
  destruct (add_complete _ _ _ _ _ _ _ _ PR L PQ R AB C N O1 OR C1 CC S1 SR) as (L1 & ABC & E2 & O2 & S2 & U2 & C2).
  destruct (add_complete _ _ _ _ _ _ _ _ PR L Q R B C N OQ OR CB CC SQ SR) as (QR & BC & E3 & O3 & S3 & U3 & C3).
  destruct (add_complete _ _ _ _ _ _ _ _ PR L P QR A BC N OP O3 CA C3 SP S3) as (R1 & ABC' & E4 & O4 & S4 & U4 & C4).
  exists PQ, L1, QR, R1. repeat (split; [assumption|]). eapply stored_same; [exact S2|exact S4|].
  exact (sum_assoc p PR d N A B C AB BC ABC ABC' CA CB CC U1 U2 U3 U4).
Qed.
Lemma add_neutral P O A : all_ok ok P -> all_ok ok O -> on_curve p d A -> stands_for p den P A -> stands_for p den O neutral ->
  exists R, sum_calls base P O R /\ stands_for p den R A.
Proof.
  intros OP OO CA SP SO. destruct (add_correct _ _ _ _ _ _ _ _ PR L P O A neutral A OP OO SP SO (sum_neutral p PR d A)) as (R & R1 & _ & R3). eauto.
Qed.
Lemma add_inverse P Q x y : all_ok ok P -> all_ok ok Q -> on_curve p d (x, y) -> stands_for p den P (x, y) -> stands_for p den Q (- x, y) ->
  exists R, sum_calls base P Q R /\ stands_for p den R neutral.
Proof.
  intros OP OQ CA SP SQ. destruct (add_correct _ _ _ _ _ _ _ _ PR L P Q _ _ _ OP OQ SP SQ (sum_inverse p PR d N x y CA)) as (R & R1 & _ & R3). eauto.
Qed.

Lemma built_right P A n R : all_ok ok P -> on_curve p d A -> stands_for p den P A -> built base P n R ->
  all_ok ok R /\ exists C, multiple p d A n C /\ stands_for p den R C.
Proof.
  intros OP CA SP H. induction H as [|n m R S T HR (OR & C & MC & SC) HS (OS & D & MD & SD) E|n R T HR (OR & C & MC & SC) E].
  - split; [exact OP|]. exists A. split; [apply mult_one; auto|exact SP].
  - assert (C1 := mult_on p PR d A CA _ _ MC). assert (C2 := mult_on p PR d A CA _ _ MD).
    destruct (add_complete _ _ _ _ _ _ _ _ PR L R S C D N OR OS C1 C2 SC SD) as (T' & CT & E' & OT & ST & U & _).
    assert (T' = T) by (eapply sum_det; eassumption). subst T'. split; [exact OT|]. exists CT. split; [|exact ST].
    eapply (mult_add p PR d N A CA); eassumption.
  - assert (C1 := mult_on p PR d A CA _ _ MC). assert (SX : stands_for_xyz p den R C) by (destruct SC as (a & b & c & _); split; [exact a|split; [exact b|exact c]]).
    destruct OR as (O1 & O2 & O3 & _). destruct (double_complete _ _ _ _ _ _ _ _ PR L R C N O1 O2 O3 C1 SX) as (T' & CT & E' & OT & ST & U & _).
    assert (T' = T) by (eapply double_det; eassumption). subst T'. split; [exact OT|]. exists CT. split; [|exact ST].
    replace (2 * n)%nat with (n + n)%nat by lia. eapply (mult_add p PR d N A CA); eassumption.
Qed.
Lemma built_go P A n R m S : all_ok ok P -> on_curve p d A -> stands_for p den P A -> built base P n R -> built base P m S ->
  (exists T, sum_calls base R S T) /\ exists T, double_calls base R T.
Proof.
  intros OP CA SP HR HS. destruct (built_right P A n R OP CA SP HR) as (OR & C & MC & SC), (built_right P A m S OP CA SP HS) as (OS & D & MD & SD).
  assert (C1 := mult_on p PR d A CA _ _ MC). assert (C2 := mult_on p PR d A CA _ _ MD). split.
  - destruct (add_complete _ _ _ _ _ _ _ _ PR L R S C D N OR OS C1 C2 SC SD) as (T & _ & E & _). eauto.
  - assert (SX : stands_for_xyz p den R C) by (destruct SC as (a & b & c & _); split; [exact a|split; [exact b|exact c]]).
    destruct OR as (O1 & O2 & O3 & _). destruct (double_complete _ _ _ _ _ _ _ _ PR L R C N O1 O2 O3 C1 SX) as (T & _ & E & _). eauto.
Qed.
Lemma built_agree P A n R S : all_ok ok P -> on_curve p d A -> stands_for p den P A -> built base P n R -> built base P n S -> same_stored p den R S.
Proof.
  intros OP CA SP HR HS. destruct (built_right P A n R OP CA SP HR) as (_ & C & MC & SC), (built_right P A n S OP CA SP HS) as (_ & D & MD & SD).
  eapply stored_same; eauto. eapply (mult_unique p PR d); eassumption.
Qed.
Lemma built_every P A n : (0 < n)%nat -> all_ok ok P -> on_curve p d A -> stands_for p den P A -> exists R, built base P n R.
Proof.
  intros N0 OP CA SP. induction n as [|[|n] IH]; [lia|exists P; constructor|]. destruct IH as (R & H); [lia|].
  destruct (built_go P A _ R _ P OP CA SP H (built_point base P)) as ((T & E) & _). exists T.
  replace (Datatypes.S (Datatypes.S n)) with (Datatypes.S n + 1)%nat by lia. econstructor; [exact H|constructor|exact E].
Qed.
End Lawful_group.

(** ** The published constants *)
Definition ec_okb (c : edwards_constants) : bool :=
  let F := cv_fld (ec_curve c) in
  canonicalb F (ec_x c) && canonicalb F (ec_y c) && canonicalb F (ec_order c) &&
  (value F (ec_x c) =? ec_x_doc c) && (value F (ec_y c) =? ec_y_doc c) && (value F (ec_order c) =? ec_order_doc c) &&
  curveb (modulus F) (cv_d (ec_curve c)) (ec_point c) && negb (fst (ec_point c) =? 0).
Definition mc_okb (c : montgomery_constants) : bool :=
  let F := mc_fld c in let x := value F (mc_x c) in let y := value F (mc_y c) in
  canonicalb F (mc_x c) && canonicalb F (mc_y c) && canonicalb F (mc_order c) &&
  (x =? mc_x_doc c) && (y =? mc_y_doc c) && (value F (mc_order c) =? mc_order_doc c) &&
  ((y * y) mod modulus F =? (x * x * x + mc_A c * x * x + x) mod modulus F).
Lemma ec_checked : forallb ec_okb edwards_published = true. Proof. vm_compute. reflexivity. Qed.
Lemma mc_checked : forallb mc_okb montgomery_published = true. Proof. vm_compute. reflexivity. Qed.
Lemma edwards_constants_right c : In c edwards_published -> let F := cv_fld (ec_curve c) in
  canonical F (ec_x c) /\ canonical F (ec_y c) /\ canonical F (ec_order c) /\
  value F (ec_x c) = ec_x_doc c /\ value F (ec_y c) = ec_y_doc c /\ value F (ec_order c) = ec_order_doc c /\
  on_curve (cv_p (ec_curve c)) (cv_d (ec_curve c)) (ec_point c) /\ ~ same_point (cv_p (ec_curve c)) (ec_point c) neutral.
Proof.
  intros H F. pose proof (proj1 (forallb_forall _ _) ec_checked c H) as K. unfold ec_okb in K. cbv zeta in K. fold F in K.
  rewrite !andb_true_iff, negb_true_iff, !Z.eqb_eq in K. destruct K as (((((((K1 & K2) & K3) & K4) & K5) & K6) & K7) & K8).
  apply canonicalb_ok in K1, K2, K3. repeat (split; [assumption|]). split; [unfold on_curve; unfold curveb in K7; destruct (ec_point c); now apply eqpb_yes in K7|].
  intros (E & _). apply Z.eqb_neq in K8. apply K8. unfold eqp in E. cbn [neutral fst] in E. unfold ec_point in *. cbn [fst] in *. fold F in E |- *.
  rewrite Zmod_0_l, Z.mod_small in E; [exact E|]. apply canonical_value; [apply curve_field|exact K1].
  unfold edwards_published in H. cbn [In] in H. intuition (subst c; cbn; auto 10).
Qed.
Lemma montgomery_constants_right c : In c montgomery_published -> let F := mc_fld c in
  canonical F (mc_x c) /\ canonical F (mc_y c) /\ canonical F (mc_order c) /\
  value F (mc_x c) = mc_x_doc c /\ value F (mc_y c) = mc_y_doc c /\ value F (mc_order c) = mc_order_doc c /\
  on_montgomery (modulus F) (mc_A c) (value F (mc_x c)) (value F (mc_y c)).
Proof.
  intros H F. pose proof (proj1 (forallb_forall _ _) mc_checked c H) as K. unfold mc_okb in K. cbv zeta in K. fold F in K.
  rewrite !andb_true_iff, !Z.eqb_eq in K. destruct K as ((((((K1 & K2) & K3) & K4) & K5) & K6) & K7).
  apply canonicalb_ok in K1, K2, K3. repeat (split; [assumption|]). exact K7.
Qed.
Lemma e222_comment : value e222_117 (ec_order E222_constants) <> 2 ^ 218 + 438651314700378199859927091142747.
Proof. vm_compute. discriminate. Qed.

Lemma group_law : forall p d, prime p -> non_square p d ->
  (forall A B, on_curve p d A -> on_curve p d B -> exists C, edwards_sum p d A B C /\ on_curve p d C) /\
  (forall A B C, edwards_sum p d A B C -> edwards_sum p d B A C) /\
  (forall A, on_curve p d A -> edwards_sum p d A neutral A) /\
  (forall x y, on_curve p d (x, y) -> edwards_sum p d (x, y) (- x, y) neutral) /\
  (forall A B C AB BC L R, on_curve p d A -> on_curve p d B -> on_curve p d C ->
     edwards_sum p d A B AB -> edwards_sum p d AB C L -> edwards_sum p d B C BC -> edwards_sum p d A BC R -> same_point p L R).
Proof.
  intros p d PR N. split; [exact (sum_ex p PR d N)|split; [exact (sum_comm p PR d)|split; [intros A _; exact (sum_neutral p PR d A)|split; [exact (sum_inverse p PR d N)|]]]].
  intros A B C AB BC L R CA CB CC U1 U2 U3 U4. exact (sum_assoc p PR d N A B C AB BC L R CA CB CC U1 U2 U3 U4).
Qed.

(** ** A concrete case: 5 P = 2(2P) + P over the field of 13 elements *)
Lemma small_group : (prime 13 /\ lawful 13 2 4 (ideal_ok 13) (fun _ => True) ideal_den ideal_mask small_field) /\ non_square 13 2 /\
  (all_ok (ideal_ok 13) small_point /\ stands_for 13 ideal_den small_point (4, 4) /\ on_curve 13 2 (4, 4)) /\
  (exists R, built small_field small_point 5 R /\ stands_for 13 ideal_den R (9, 9)) /\
  stands_for 13 ideal_den (Ext (VInt 0) (VInt 3) (VInt 3) (VInt 0)) neutral /\ stands_for 13 ideal_den (Ext (VInt 5) (VInt 8) (VInt 2) (VInt 7)) (- 4, 4).
Proof.
  split; [exact small_lawful|split; [exact small_non_square|split; [exact small_point_ok|split; [|split; repeat split; vm_compute; congruence]]]].
  pose (run f vs := match curve_call Debug small_field f vs with Ok ([a; b; c; e], _) => Ext a b c e | _ => small_point end).
  pose (R2 := run "P::doubled"%string (coords small_point)). pose (R4 := run "P::doubled"%string (coords R2)).
  pose (R5 := run "P::add(P)"%string (coords R4 ++ coords small_point)).
  assert (E2 : double_calls small_field small_point R2) by (intros [|]; split; vm_compute; reflexivity).
  assert (E4 : double_calls small_field R2 R4) by (intros [|]; split; vm_compute; reflexivity).
  assert (E5 : sum_calls small_field R4 small_point R5) by (intros [|]; repeat split; vm_compute; reflexivity).
  exists R5. split; [|repeat split; vm_compute; congruence].
  change 5%nat with (2 * (2 * 1) + 1)%nat. eapply built_sum; [|constructor|exact E5]. eapply built_double; [|exact E4]. eapply built_double; [constructor|exact E2].
Qed.
