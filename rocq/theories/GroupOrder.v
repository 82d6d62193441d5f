(** The published orders: prime, and the exact order of the published base
    points of the five Edwards curves. *)
From Coq Require Import ZArith Znumtheory List Bool Lia String Uint63 Setoid.
From Verif Require Import Lang Kernel Fields Ops Words NumTheory Primality Fast Orders Zp EdwardsSpec EdwardsAlg GroupLaw Lawful CurveSpec Curves CurveRefute Roots GroupSpec Group.
Import ListNotations.
Local Open Scope Z_scope.

Section Order.
Variable p : Z.
Hypothesis P : prime p.
Variable d : Z.
Hypothesis N : non_square p d.
Variable M : modl.
Hypothesis H : mod_ok p M.
Variable D : list int.
Hypothesis HD : cong p (zof D) d.

Definition fproj : Type := (list int * list int * list int)%type.
(* GroupLaw.padd *)
Definition fpadd (P1 P2 : fproj) : fproj :=
  let '(X1, Y1, Z1) := P1 in let '(X2, Y2, Z2) := P2 in
  let A := fmul M Z1 Z2 in let B := fmul M A A in let C := fmul M X1 X2 in let F := fmul M Y1 Y2 in
  let E := fmul M D (fmul M C F) in let G := fsub M B E in let K := fadd B E in
  (fmul M (fmul M A G) (fsub M (fsub M (fmul M (fadd X1 Y1) (fadd X2 Y2)) C) F), fmul M (fmul M A K) (fsub M F C), fmul M G K).
Definition zproj (R : fproj) : proj := let '(X, Y, Z) := R in (zof X, zof Y, zof Z).
Lemma fpadd_ok P1 P2 A B C : pden p (zproj P1) A -> pden p (zproj P2) B -> edwards_sum p d A B C -> pden p (zproj (fpadd P1 P2)) C.
Proof.
  destruct P1 as ((X1, Y1), Z1), P2 as ((X2, Y2), Z2), A as (x1, y1), B as (x2, y2), C as (x3, y3).
  unfold edwards_sum, pden, zproj, fpadd. rewrite !(eqc p P). cbn [fst snd]. intros (NZ1 & HX1 & HY1) (NZ2 & HX2 & HY2) (N1 & N2 & HX & HY).
  set (A := fmul M Z1 Z2). set (B := fmul M A A). set (C := fmul M X1 X2). set (F := fmul M Y1 Y2). set (CF := fmul M C F). set (E := fmul M D CF).
  refine (padd_steps p P d (zof X1) (zof Y1) (zof Z1) (zof X2) (zof Y2) (zof Z2) x1 y1 x2 y2 x3 y3 (zof A) (zof B) (zof C) (zof F) (zof CF) (zof E)
    (zof (fmul M A (fsub M B E))) (zof (fmul M A (fadd B E))) (zof (fsub M (fsub M (fmul M (fadd X1 Y1) (fadd X2 Y2)) C) F)) _ _ _
    _ _ _ _ _ _ _ _ _ _ _ _ NZ1 HX1 HY1 NZ2 HX2 HY2 N1 N2 HX HY);
    try (apply (fmul_ok p M H)); rewrite ?(fmul_ok p M H), ?(fsub_ok p M H), ?fadd_ok; try reflexivity.
  - unfold E. rewrite (fmul_ok p M H), HD. reflexivity.
  - rewrite (fmul_ok p M H), !fadd_ok. reflexivity.
Qed.
Fixpoint fpmul (P1 : fproj) (e : positive) : fproj :=
  match e with
  | xH => P1
  | xO e => let Q := fpmul P1 e in fpadd Q Q
  | xI e => let Q := fpmul P1 e in fpadd (fpadd Q Q) P1
  end.
Lemma fpmul_ok P1 A : on_curve p d A -> pden p (zproj P1) A -> forall e, exists R, multiple p d A (Pos.to_nat e) R /\ pden p (zproj (fpmul P1 e)) R.
Proof.
  intros C K. induction e as [e (Q & L & E)|e (Q & L & E)|]; cbn [fpmul].
  - assert (CQ := mult_on p P d A C _ _ L). destruct (sum_ex p P d N Q Q CQ CQ) as (S & HS & CS). destruct (sum_ex p P d N S A CS C) as (T & HT & _). exists T. split.
    + replace (Pos.to_nat e~1) with (Pos.to_nat e + Pos.to_nat e + 1)%nat by lia.
      eapply (mult_add p P d N); [exact C|eapply (mult_add p P d N); [exact C|exact L|exact L|exact HS]|apply (mult_one p P d)|exact HT].
    + eapply fpadd_ok; eauto. eapply fpadd_ok; eauto.
  - assert (CQ := mult_on p P d A C _ _ L). destruct (sum_ex p P d N Q Q CQ CQ) as (S & HS & CS). exists S. split.
    + replace (Pos.to_nat e~0) with (Pos.to_nat e + Pos.to_nat e)%nat by lia. eapply (mult_add p P d N); [exact C|exact L|exact L|exact HS].
    + eapply fpadd_ok; eauto.
  - exists A. split; [apply (mult_one p P d)|exact K].
Qed.
End Order.

(** q (x, y) is the neutral point *)
Definition fkills (k : nat) (p d x y q : Z) : bool :=
  match q with
  | Zpos e => let '(X, Y, Z) := zproj (fpmul (modl_of k p) (ofZ k (d mod p)) (ofZ k (x mod p), ofZ k (y mod p), ofZ k 1) e) in
      (X mod p =? 0) && ((Y - Z) mod p =? 0)
  | _ => false
  end.
Lemma fkills_ok k p d x y q : prime p -> non_square p d -> p < wB ^ Z.of_nat k -> on_curve p d (x, y) -> fkills k p d x y q = true ->
  exists R, multiple p d (x, y) (Z.to_nat q) R /\ same_point p R neutral.
Proof.
  intros P N W C K. assert (P0 := prime_ge_2 p P). unfold fkills in K. destruct q as [|e|e]; try discriminate.
  assert (B : forall x, 0 <= x mod p < wB ^ Z.of_nat k) by (intros z; pose proof (Z.mod_pos_bound z p); lia).
  destruct (fpmul_ok p P d N (modl_of k p) (modl_of_ok k p ltac:(lia)) (ofZ k (d mod p))) with (P1 := (ofZ k (x mod p), ofZ k (y mod p), ofZ k 1)) (A := (x, y)) (e := e) as (Q & L & E).
  { rewrite ofZ_ok by apply B. apply cong_mod. lia. }
  { exact C. }
  { unfold pden, zproj. rewrite !ofZ_ok by (try apply B; lia). cbn [fst snd]. rewrite !Z.mul_1_r. repeat split; try (symmetry; apply cong_mod; lia). apply (zp_one p P). }
  exists Q. split; [exact L|]. destruct (zproj _) as ((X, Y), Z). apply andb_true_iff in K as (KX & KY).
  apply Z.eqb_eq in KX, KY. destruct E as (NZ & DX & DY). destruct Q as (qx, qy). cbn [fst snd] in DX, DY. unfold same_point, neutral. cbn [fst snd].
  assert (X0 : cong p X 0). { apply Z.mod_divide in KX; [|lia]. unfold cong. now rewrite Z.sub_0_r. }
  assert (Y0 : cong p Y Z). { apply Z.mod_divide in KY; [|lia]. exact KY. }
  rewrite !(eqc p P). split; apply (cancel p P _ _ Z NZ).
  - rewrite Z.mul_0_r, Z.mul_comm, DX. exact X0.
  - rewrite Z.mul_1_r, Z.mul_comm, DY. exact Y0.
Qed.

(** ** The five base points *)
Definition width (c : edwards_constants) : nat := Z.to_nat (nbits (cv_fld (ec_curve c)) / 63 + 1).
Definition killed (c : edwards_constants) : bool :=
  (cv_p (ec_curve c) <? wB ^ Z.of_nat (width c)) &&
  fkills (width c) (cv_p (ec_curve c)) (cv_d (ec_curve c)) (fst (ec_point c)) (snd (ec_point c)) (value (cv_fld (ec_curve c)) (ec_order c)).
Lemma all_killed : forallb killed edwards_published = true. Proof. vm_cast_no_check (eq_refl true). Qed.
Lemma edwards_curve c : In c edwards_published -> In (ec_curve c) all_curves.
Proof. unfold edwards_published. cbn [In]. intuition (subst c; cbn; auto 10). Qed.
Lemma edwards_order_prime c : In c edwards_published -> prime (value (cv_fld (ec_curve c)) (ec_order c)).
Proof.
  intros I. pose proof (edwards_constants_right c I) as (_ & _ & _ & _ & _ & E & _). rewrite E. unfold edwards_published in I. cbn [In] in I.
  destruct I as [<- | [<- | [<- | [<- | [<- | []]]]]]; cbn [ec_order_doc E222_constants Curve1174_constants E382_constants Curve41417_constants E521_constants].
  - exact order_E222.
  - exact order_Curve1174.
  - exact order_E382.
  - exact order_Curve41417.
  - exact order_E521.
Qed.
Lemma montgomery_order_prime c : In c montgomery_published -> prime (value (mc_fld c) (mc_order c)).
Proof.
  intros I. pose proof (montgomery_constants_right c I) as (_ & _ & _ & _ & _ & E & _). rewrite E. unfold montgomery_published in I. cbn [In] in I.
  destruct I as [<- | [<- | [<- | [<- | [<- | []]]]]]; cbn [mc_order_doc M221_constants Curve25519_constants M383_constants Curve383187_constants M511_constants].
  - exact order_M221.
  - exact order_Curve25519.
  - exact order_M383.
  - exact order_Curve383187.
  - exact order_M511.
Qed.
Lemma curve_prime C : In C all_curves -> prime (cv_p C).
Proof. intros H. exact (prime_modulus (cv_fld C) (curve_field C H)). Qed.
Lemma base_order c : In c edwards_published -> let p := cv_p (ec_curve c) in let d := cv_d (ec_curve c) in let q := value (cv_fld (ec_curve c)) (ec_order c) in
  forall n R, multiple p d (ec_point c) n R -> (same_point p R neutral <-> (q | Z.of_nat n)).
Proof.
  intros I p d q. pose proof (edwards_curve c I) as H. pose proof (curve_prime _ H) as P. destruct (d_right _ H) as (_ & _ & _ & _ & N & _).
  pose proof (edwards_constants_right c I) as (_ & _ & _ & _ & _ & _ & OC & NN).
  pose proof (proj1 (forallb_forall _ _) all_killed c I) as K. unfold killed in K. apply andb_true_iff in K as (W & K). apply Z.ltb_lt in W.
  destruct (ec_point c) as (x, y) eqn:EP. cbn [fst snd] in K.
  destruct (fkills_ok _ p d x y q P N W OC K) as (R0 & M0 & E0).
  exact (period p P d N (x, y) q R0 OC (edwards_order_prime c I) M0 E0 NN).
Qed.
(** two multiples are the same point exactly when the scalars agree modulo the order *)
Section Distinct.
Variables p d q : Z.
Hypothesis P : prime p.
Hypothesis N : non_square p d.
Hypothesis Q : 1 < q.
Variable A : affine.
Hypothesis C : on_curve p d A.
Hypothesis O : forall n R, multiple p d A n R -> (same_point p R neutral <-> (q | Z.of_nat n)).
Lemma shifted n k R S : multiple p d A n R -> multiple p d A (n + k) S -> (q | Z.of_nat k) -> same_point p R S.
Proof.
  intros HR HS D. destruct (mult_ex p P d N A k C) as (T & HT). apply (O k T HT) in D.
  assert (M : multiple p d A (n + k) R).
  { eapply (mult_add p P d N); [exact C|exact HR|exact HT|]. eapply sum_ext; [exact P|apply same_refl|apply same_sym; exact D|apply same_refl|apply (sum_neutral p P d)]. }
  eapply (mult_unique p P d); eauto.
Qed.
Lemma multiples_distinct n m R S : multiple p d A n R -> multiple p d A m S -> (same_point p R S <-> (q | Z.of_nat n - Z.of_nat m)).
Proof.
  intros HR HS. split.
  - intros E. set (w := ((Z.to_nat q - 1) * n)%nat). destruct (mult_ex p P d N A w C) as (U & HU).
    destruct (sum_ex p P d N R U (mult_on p P d A C _ _ HR) (mult_on p P d A C _ _ HU)) as (V & HV & _).
    assert (M1 := mult_add p P d N A C _ _ _ _ _ HR HU HV).
    assert (HV' : edwards_sum p d S U V) by (eapply sum_ext; [exact P|exact E|apply same_refl|apply same_refl|exact HV]).
    assert (M2 := mult_add p P d N A C _ _ _ _ _ HS HU HV').
    assert (D1 : (q | Z.of_nat (n + w))). { exists (Z.of_nat n). unfold w. nia. }
    apply (O _ _ M1) in D1. apply (O _ _ M2) in D1.
    assert (D2 : (q | Z.of_nat (n + w))). { exists (Z.of_nat n). unfold w. nia. }
    replace (Z.of_nat n - Z.of_nat m) with (Z.of_nat (n + w) - Z.of_nat (m + w)) by lia. now apply Z.divide_sub_r.
  - intros D. destruct (Nat.le_ge_cases n m) as [L|L].
    + apply (shifted n (m - n) R S); [exact HR|now replace (n + (m - n))%nat with m by lia|].
      replace (Z.of_nat (m - n)) with (- (Z.of_nat n - Z.of_nat m)) by lia. now apply Z.divide_opp_r.
    + apply same_sym. apply (shifted m (n - m) S R); [exact HS|now replace (m + (n - m))%nat with n by lia|].
      now replace (Z.of_nat (n - m)) with (Z.of_nat n - Z.of_nat m) by lia.
Qed.
End Distinct.
Lemma base_multiples c : In c edwards_published -> let p := cv_p (ec_curve c) in let d := cv_d (ec_curve c) in let q := value (cv_fld (ec_curve c)) (ec_order c) in
  forall n m R S, multiple p d (ec_point c) n R -> multiple p d (ec_point c) m S -> (same_point p R S <-> (q | Z.of_nat n - Z.of_nat m)).
Proof.
  intros I p d q. pose proof (edwards_curve c I) as H. destruct (d_right _ H) as (_ & _ & _ & _ & N & _). pose proof (edwards_order_prime c I) as PQ. pose proof (prime_ge_2 _ PQ).
  apply multiples_distinct; [exact (curve_prime _ H)|exact N|unfold q; lia|apply (edwards_constants_right c I)|exact (base_order c I)].
Qed.

(** ** Seen through the library's additions and doublings *)
Section Stored.
Variables p d nbits : Z.
Variables ok canon : val -> Prop.
Variable den : val -> Z.
Variable mask : bool -> val.
Variable base : string -> list val -> res (list val * list val).
Hypothesis PR : prime p.
Hypothesis L : lawful p d nbits ok canon den mask base.
Hypothesis N : non_square p d.
Lemma stored_back R S A B : stands_for p den R A -> stands_for p den S B -> same_stored p den R S -> same_point p A B.
Proof.
  destruct A as (a, b), B as (a', b'). unfold stands_for, denotes, same_point, same_stored. cbn [fst snd]. rewrite !(eqc p PR).
  intros (N1 & X1 & Y1 & _) (N2 & X2 & Y2 & _) (_ & _ & EX & EY). rewrite <- X1, <- X2 in EX. rewrite <- Y1, <- Y2 in EY.
  assert (NZ : ~ cong p (den (eZ R) * den (eZ S)) 0) by (apply (nz_mul p PR); assumption).
  split; apply (cancel p PR _ _ _ NZ).
  - etransitivity; [|etransitivity; [exact EX|]]; apply cong_eq; ring.
  - etransitivity; [|etransitivity; [exact EY|]]; apply cong_eq; ring.
Qed.
Lemma stands_back R A B : stands_for p den R A -> stands_for p den R B -> same_point p A B.
Proof.
  destruct A as (a, b), B as (a', b'). unfold stands_for, denotes, same_point. cbn [fst snd]. rewrite !(eqc p PR).
  intros (N1 & X1 & Y1 & _) (_ & X2 & Y2 & _). rewrite <- X2 in X1. rewrite <- Y2 in Y1.
  split; apply (cancel p PR _ _ _ N1); [rewrite !(Z.mul_comm (den (eZ R))); exact X1|rewrite !(Z.mul_comm (den (eZ R))); exact Y1].
Qed.
End Stored.
Lemma library_order c : In c edwards_published -> let p := cv_p (ec_curve c) in let d := cv_d (ec_curve c) in let q := value (cv_fld (ec_curve c)) (ec_order c) in
  forall nbits ok canon den mask base, lawful p d nbits ok canon den mask base ->
  forall P, all_ok ok P -> stands_for p den P (ec_point c) ->
  (forall n R, built base P n R -> (stands_for p den R neutral <-> (q | Z.of_nat n))) /\
  (forall n R m S, built base P n R -> built base P m S -> (same_stored p den R S <-> (q | Z.of_nat n - Z.of_nat m))).
Proof.
  intros I p d q nbits ok canon den mask base LW P HP SP. pose proof (edwards_curve c I) as H. pose proof (curve_prime _ H : prime p) as PR.
  destruct (d_right _ H) as (_ & _ & _ & _ & N & _). change (non_square p d) in N.
  pose proof (edwards_constants_right c I) as (_ & _ & _ & _ & _ & _ & OC & _).
  assert (B := built_right p d nbits ok canon den mask base PR LW N P (ec_point c)). split.
  - intros n R HR. destruct (B n R HP OC SP HR) as (_ & C & M & SR). assert (BO : same_point p C neutral <-> (q | Z.of_nat n)) by exact (base_order c I n C M). rewrite <- BO. split.
    + intros E. exact (stands_back p den PR R C neutral SR E).
    + intros E. exact (stands_ext p den PR R C neutral E SR).
  - intros n R m S HR HS. destruct (B n R HP OC SP HR) as (_ & C & M & SR). destruct (B m S HP OC SP HS) as (_ & C' & M' & SS).
    assert (BO : same_point p C C' <-> (q | Z.of_nat n - Z.of_nat m)) by exact (base_multiples c I n m C C' M M'). rewrite <- BO. split.
    + intros E. exact (stored_back p den PR R S C C' SR SS E).
    + intros E. exact (stored_same p den PR R S C C' SR SS E).
Qed.
Definition E521_ideal : ext := Ext (VInt (fst (ec_point E521_constants))) (VInt (snd (ec_point E521_constants))) (VInt 1)
  (VInt ((fst (ec_point E521_constants) * snd (ec_point E521_constants)) mod cv_p E_521)).
Lemma order_case : In E521_constants edwards_published /\
  lawful (cv_p E_521) (cv_d E_521) 521 (ideal_ok (cv_p E_521)) (fun _ => True) ideal_den ideal_mask (ideal_field (cv_p E_521) (cv_d E_521) 521) /\
  all_ok (ideal_ok (cv_p E_521)) E521_ideal /\ stands_for (cv_p E_521) ideal_den E521_ideal (ec_point E521_constants) /\
  exists R, built (ideal_field (cv_p E_521) (cv_d E_521) 521) E521_ideal 5 R.
Proof.
  assert (I : In E521_constants edwards_published) by (cbn; auto 10).
  assert (LW : lawful (cv_p E_521) (cv_d E_521) 521 (ideal_ok (cv_p E_521)) (fun _ => True) ideal_den ideal_mask (ideal_field (cv_p E_521) (cv_d E_521) 521)).
  { apply ideal_lawful; [apply Z.ltb_lt|split; apply Z.ltb_lt|apply Z.leb_le]; vm_compute; reflexivity. }
  assert (OK : all_ok (ideal_ok (cv_p E_521)) E521_ideal).
  { unfold all_ok, E521_ideal, ideal_ok. cbn [eX eY eZ eT].
    repeat split; (eexists; split; [reflexivity|split; [apply Z.leb_le|apply Z.ltb_lt]; vm_compute; reflexivity]). }
  assert (SF : stands_for (cv_p E_521) ideal_den E521_ideal (ec_point E521_constants)).
  { unfold stands_for, denotes, eqp, E521_ideal. cbn [eX eY eZ eT ideal_den]. repeat split; vm_compute; try reflexivity. discriminate. }
  split; [exact I|split; [exact LW|split; [exact OK|split; [exact SF|]]]].
  pose proof (edwards_curve _ I) as H. destruct (d_right _ H) as (_ & _ & _ & _ & N & _).
  pose proof (edwards_constants_right _ I) as (_ & _ & _ & _ & _ & _ & OC & _).
  eapply (built_every _ _ _ _ _ _ _ _ (curve_prime _ H) LW N _ _ 5); [lia|exact OK|exact OC|exact SF].
Qed.
