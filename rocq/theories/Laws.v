(** Expressions evaluate to their integer value, and the ring laws hold for encodings. *)
From Coq Require Import ZArith List String Lia Bool.
From Verif Require Import Lang Poly Kernel Fields Kfacts Ops Words Codec Normalize Methods Surface Forms Format Power
  Arith Encoding Observe NumTheory Roots Safe Machine History.
Import ListNotations.
Local Open Scope string_scope.
Local Open Scope Z_scope.

Lemma normalized_ok F f args o outs : In F all_fields -> runs F f args [VArr o] outs -> normal F o ->
  forall md, normalized md F (rust_call md (fl_tbl F) f args) = Ok (canon F o).
Proof.
  intros H R N md. unfold normalized. rewrite (R md). cbn [bind fst].
  pose proof (normalize_normal F o H N) as R2. apply (runsd_runs 4) in R2; [|lia]. rewrite (R2 md). reflexivity.
Qed.
Lemma canon_mod F o z : In F all_fields -> eqmod F (value F o) z -> eqmod F (value F (canon F o)) z.
Proof. intros H E. rewrite canon_value by auto. unfold eqmod in *. rewrite Z.mod_mod by (apply modulus_nz; auto). exact E. Qed.
(** the shapes of results on canonical operands *)
Lemma plus_shape F o k : is_i32 k -> o <> SmallMul -> exists u, small_shape F o Canonical k = Some u /\ is_normal u = true.
Proof.
  intros K N. unfold small_shape. replace (i32b k) with true by (unfold is_i32 in K; symmetry; unfold i32b; lia).
  destruct o; [| |contradiction (N eq_refl)]; eexists; (split; [reflexivity|]); [destruct (_ && _)|]; reflexivity.
Qed.
Lemma scale_shape F k : In F all_fields -> is_i32 k -> 0 <= k < 2 ^ (63 - fl_tb F) -> (F = e521_1 -> exists j, 0 <= j /\ k = 2 ^ j) ->
  exists u, small_shape F SmallMul Canonical k = Some u /\ is_normal u = true.
Proof.
  intros H K R P. unfold small_shape. replace (i32b k) with true by (unfold is_i32 in K; symmetry; unfold i32b; lia).
  assert (E : negb (is521 F) || powb k = true).
  { destruct (is521 F) eqn:E5; [|reflexivity]. cbn [negb orb].
    assert (E : F = e521_1) by (revert H E5; clear; intros H E; repeat (destruct H as [<-|H]; [first [discriminate E|reflexivity]|]); destruct H).
    destruct (P E) as (j & J & ->). rewrite E in R. cbn [fl_tb e521_1] in R. assert (j < 28) by (apply (Z.pow_lt_mono_r_iff 2); lia).
    unfold powb. rewrite Z.log2_pow2 by lia. pose proof (Z.pow_pos_nonneg 2 j ltac:(lia) ltac:(lia)). rewrite Z.eqb_refl. lia. }
  rewrite E. replace (Z.abs k <? 2 ^ (63 - fl_tb F)) with true by lia. replace (0 <=? k) with true by lia.
  eexists. split; [reflexivity|]. destruct (_ <=? _); reflexivity.
Qed.
Lemma div_shape F : In F all_fields -> F <> e251_9 ->
  exists u, op_shape F Div Canonical Canonical = Some u /\ is_normal u = true /\ un_shape F Invert Canonical = Some u.
Proof.
  intros H N. assert (E : is251 F = false) by (revert H N; clear; intros H N; repeat (destruct H as [<-|H]; [first [reflexivity|contradiction (N eq_refl)]|]); destruct H).
  cbn [op_shape un_shape]. rewrite E. destruct (is222 F); eexists; (split; [reflexivity|split; reflexivity]).
Qed.
Lemma evaluate_ok F inp t : In F all_fields -> (forall n, is_bytes (inp n) /\ (fl_nb F <= List.length (inp n))%nat) -> term_ok F t ->
  exists a, (forall md, evaluate md F inp t = Ok a) /\ canonical F a /\ eqmod F (value F a) (term_value F (fun n => bytes_value F (inp n)) t).
Proof.
  intros H HI. destruct (constants_claim F H) as (z & _ & _ & _ & Rz & _ & _ & _ & Cz & Vz & _).
  induction t as [n|k|a IHa b IHb|a IHa b IHb|a IHa b IHb|a IHa|a IHa|a IHa k|a IHa k|a IHa k|a IHa b IHb|a IHa|a IHa|a IHa]; intros HT; cbn [term_ok] in HT.
  - destruct (HI n) as [Hb Hl].
    destruct (unpack_tracks F H (inp n)) as (o & R & S & V).
    { apply andb_true_iff. split; [|now apply Nat.leb_le]. apply forallb_forall. intros x Hx. unfold is_bytes in Hb. rewrite Forall_forall in Hb. specialize (Hb x Hx). lia. }
    exists (canon F o). split; [|split; [now apply canon_canonical|]].
    + intros md. cbn [evaluate]. eapply normalized_ok; eauto. eapply sh_normal; [exact H| |exact S]. destruct (nbits F =? 383); reflexivity.
    + apply canon_mod; auto. cbn [term_value]. now rewrite V.
  - destruct (small_tracks F H SmallAdd Canonical (if 0 <=? k then Near else Fresh) z k) as (o & [_ R] & S & V); auto.
    { unfold small_shape. replace (i32b k) with true; [reflexivity|]. unfold is_i32 in HT. symmetry. unfold i32b. lia. }
    exists (canon F o). split; [|split; [now apply canon_canonical|]].
    + intros md. cbn [evaluate]. rewrite (Rz md). cbn [bind fst]. eapply normalized_ok; eauto. eapply sh_normal; [exact H| |exact S]. destruct (0 <=? k); reflexivity.
    + apply canon_mod; auto. refine (eq_trans V _). cbn [small_value term_value]. rewrite Vz, Z.add_0_l. reflexivity.
  - destruct IHa as (x & Ex & Cx & Vx); [tauto|]. destruct IHb as (y & Ey & Cy & Vy); [tauto|].
    destruct (op_tracks F H Add Canonical Canonical Summand x y) as (o & [_ R] & S & V); auto.
    exists (canon F o). split; [|split; [now apply canon_canonical|]].
    + intros md. cbn [evaluate]. rewrite Ex, Ey. cbn [bind]. eapply normalized_ok; eauto. eapply sh_normal; [exact H| |exact S]. reflexivity.
    + apply canon_mod; auto. refine (eq_trans V _). cbn [op_value term_value]. now apply eqmod_sum.
  - destruct IHa as (x & Ex & Cx & Vx); [tauto|]. destruct IHb as (y & Ey & Cy & Vy); [tauto|].
    destruct (op_tracks F H Sub Canonical Canonical Difference x y) as (o & [_ R] & S & V); auto.
    exists (canon F o). split; [|split; [now apply canon_canonical|]].
    + intros md. cbn [evaluate]. rewrite Ex, Ey. cbn [bind]. eapply normalized_ok; eauto. eapply sh_normal; [exact H| |exact S]. reflexivity.
    + apply canon_mod; auto. refine (eq_trans V _). cbn [op_value term_value]. now apply eqmod_diff.
  - destruct IHa as (x & Ex & Cx & Vx); [tauto|]. destruct IHb as (y & Ey & Cy & Vy); [tauto|].
    destruct (op_tracks F H Mul Canonical Canonical Loose x y) as (o & [_ R] & S & V); auto.
    { cbn [op_shape]. destruct (is251 F); reflexivity. }
    exists (canon F o). split; [|split; [now apply canon_canonical|]].
    + intros md. cbn [evaluate]. rewrite Ex, Ey. cbn [bind]. eapply normalized_ok; eauto. eapply sh_normal; [exact H| |exact S]. reflexivity.
    + apply canon_mod; auto. refine (eq_trans V _). cbn [op_value term_value]. now apply eqmod_mul.
  - destruct IHa as (x & Ex & Cx & Vx); [tauto|].
    destruct (op_tracks F H Sub Canonical Canonical Difference z x) as (o & [_ R] & S & V); auto.
    exists (canon F o). split; [|split; [now apply canon_canonical|]].
    + intros md. cbn [evaluate]. rewrite Ex, (Rz md). cbn [bind fst]. eapply normalized_ok; eauto. eapply sh_normal; [exact H| |exact S]. reflexivity.
    + apply canon_mod; auto. refine (eq_trans V _). cbn [op_value term_value]. rewrite Vz, Z.sub_0_l. unfold eqmod in *. apply eqmod_cong; auto. apply cong_opp. now apply eqmod_cong.
  - destruct IHa as (x & Ex & Cx & Vx); [tauto|].
    destruct (un_tracks F H Square Canonical Loose x) as (o & [_ R] & S & V); auto.
    exists (canon F o). split; [|split; [now apply canon_canonical|]].
    + intros md. cbn [evaluate]. rewrite Ex. cbn [bind]. eapply normalized_ok; eauto. eapply sh_normal; [exact H| |exact S]. reflexivity.
    + apply canon_mod; auto. refine (eq_trans V _). cbn [un_value term_value]. now apply eqmod_mul.
  - destruct HT as (Hk & HT). destruct (IHa HT) as (x & Ex & Cx & Vx). destruct (plus_shape F SmallAdd k Hk ltac:(discriminate)) as (u & Eu & Nu).
    destruct (small_tracks F H SmallAdd Canonical u x k Eu Cx) as (o & [_ R] & S & V).
    exists (canon F o). split; [|split; [now apply canon_canonical|]].
    + intros md. cbn [evaluate]. rewrite Ex. cbn [bind]. eapply normalized_ok; eauto. eapply sh_normal; [exact H|exact Nu|exact S].
    + apply canon_mod; auto. refine (eq_trans V _). cbn [term_value]. now apply (small_value_mod F H SmallAdd).
  - destruct HT as (Hk & HT). destruct (IHa HT) as (x & Ex & Cx & Vx). destruct (plus_shape F SmallSub k Hk ltac:(discriminate)) as (u & Eu & Nu).
    destruct (small_tracks F H SmallSub Canonical u x k Eu Cx) as (o & [_ R] & S & V).
    exists (canon F o). split; [|split; [now apply canon_canonical|]].
    + intros md. cbn [evaluate]. rewrite Ex. cbn [bind]. eapply normalized_ok; eauto. eapply sh_normal; [exact H|exact Nu|exact S].
    + apply canon_mod; auto. refine (eq_trans V _). cbn [term_value]. now apply (small_value_mod F H SmallSub).
  - destruct HT as (Hk & Hr & Hp & HT). destruct (IHa HT) as (x & Ex & Cx & Vx). destruct (scale_shape F k H Hk Hr Hp) as (u & Eu & Nu).
    destruct (small_tracks F H SmallMul Canonical u x k Eu Cx) as (o & [_ R] & S & V).
    exists (canon F o). split; [|split; [now apply canon_canonical|]].
    + intros md. cbn [evaluate]. rewrite Ex. cbn [bind]. eapply normalized_ok; eauto. eapply sh_normal; [exact H|exact Nu|exact S].
    + apply canon_mod; auto. refine (eq_trans V _). cbn [term_value]. now apply (small_value_mod F H SmallMul).
  - destruct HT as (N & HTa & HTb). destruct (IHa HTa) as (x & Ex & Cx & Vx). destruct (IHb HTb) as (y & Ey & Cy & Vy). destruct (div_shape F H N) as (u & Eu & Nu & _).
    destruct (op_tracks F H Div Canonical Canonical u x y Eu Cx Cy) as (o & [_ R] & S & V).
    exists (canon F o). split; [|split; [now apply canon_canonical|]].
    + intros md. cbn [evaluate]. rewrite Ex, Ey. cbn [bind]. eapply normalized_ok; eauto. eapply sh_normal; [exact H|exact Nu|exact S].
    + apply canon_mod; auto. refine (eq_trans V _). cbn [term_value]. now apply (op_value_mod F H Div).
  - destruct HT as (N & HT). destruct (IHa HT) as (x & Ex & Cx & Vx). destruct (div_shape F H N) as (u & _ & Nu & Eu).
    destruct (un_tracks F H Invert Canonical u x Eu Cx) as (o & [_ R] & S & V).
    exists (canon F o). split; [|split; [now apply canon_canonical|]].
    + intros md. cbn [evaluate]. rewrite Ex. cbn [bind]. eapply normalized_ok; eauto. eapply sh_normal; [exact H|exact Nu|exact S].
    + apply canon_mod; auto. refine (eq_trans V _). cbn [term_value]. now apply (un_value_mod F H Invert).
  - destruct HT as (N & HT). destruct (IHa HT) as (x & Ex & Cx & Vx). destruct (div_shape F H N) as (u & _ & Nu & Eu).
    destruct (symbol_tracks F H Canonical u x Eu Cx) as (o & R & S & V).
    exists (canon F o). split; [|split; [now apply canon_canonical|]].
    + intros md. cbn [evaluate]. rewrite Ex. cbn [bind]. eapply normalized_ok; eauto. eapply sh_normal; [exact H|exact Nu|exact S].
    + apply canon_mod; auto. refine (eq_trans V _). cbn [term_value]. now apply symbol_mod.
  - destruct HT as (N & HT). destruct (IHa HT) as (x & Ex & Cx & Vx). destruct (div_shape F H N) as (u & _ & Nu & Eu).
    destruct (root_tracks F H Canonical u x Eu Cx) as (o & R & S & V).
    exists (canon F o). split; [|split; [now apply canon_canonical|]].
    + intros md. cbn [evaluate]. rewrite Ex. cbn [bind]. eapply normalized_ok; eauto. eapply sh_normal; [exact H|exact Nu|exact S].
    + apply canon_mod; auto. refine (eq_trans V _). cbn [term_value]. now apply root_mod.
Qed.
Lemma expressions F inp t : In F all_fields -> (forall n, is_bytes (inp n) /\ (fl_nb F <= List.length (inp n))%nat) -> term_ok F t ->
  exists a, (forall md, evaluate md F inp t = Ok a) /\
    runs F "F::packed" [VArr a] [VArr (encode F (term_value F (fun n => bytes_value F (inp n)) t))] [VArr a].
Proof.
  intros H HI HT. destruct (evaluate_ok F inp t H HI HT) as (a & E & C & V). exists a. split; [exact E|].
  pose proof (packed_runs F a H (canonical_normal F a H C)) as R. apply (runsd_runs 6) in R; [|lia].
  rewrite (proj2 (encode_eq F _ _ H) V), (canon_id F a H C) in R. exact R.
Qed.

(** ** Laws *)
Lemma encodes_ok F a z : In F all_fields -> normal F a -> eqmod F (value F a) z -> encodes F a (encode F z).
Proof. intros H N E. exists (canon F a). rewrite <- (proj2 (encode_eq F _ _ H) E). apply (runsd_runs 6); [lia|]. now apply packed_runs. Qed.

Section Laws.
  Variable F : fld.
  Hypothesis HF : In F all_fields.
  (** operands with their shape *)
  Definition rs (s : shape) (a : list Z) : Prop :=
    has_shape F s a /\ (s = Near \/ (is222 F = true /\ is251 F = false /\ s = Loose) \/ (is222 F = false /\ is251 F = false /\ s = Wide)).
  Lemma not_is222 : F <> e222_117 -> is222 F = false.
  Proof. revert HF. clear. intros H N. repeat (destruct H as [<-|H]; [first [reflexivity|contradiction (N eq_refl)]|]). destruct H. Qed.
  Lemma not_is251 : F <> e251_9 -> is251 F = false.
  Proof. revert HF. clear. intros H N. repeat (destruct H as [<-|H]; [first [reflexivity|contradiction (N eq_refl)]|]). destruct H. Qed.
  Lemma ring_rs a : ring_safe F a -> exists s, rs s a.
  Proof.
    intros [T|[(N & P)|(N1 & N2 & P)]]; [exists Near; split; [exact T|auto]|exists Loose; split; [exact P|]|exists Wide; split; [exact P|]].
    - right; left. rewrite N. split; [reflexivity|split; reflexivity].
    - right; right. auto using not_is222, not_is251.
  Qed.
  Lemma ring_any a : ring_safe F a -> any_rep F a.
  Proof. intros R. destruct (ring_rs a R) as (s & S & _). (eapply sh_any; [exact HF|eassumption]). Qed.
  (** the shapes of products of such operands *)
  Lemma mul_rs s t a b : rs s a -> rs t b -> exists u r, op_shape F Mul s t = Some u /\ computes F "mul" a b r /\ has_shape F u r /\
    eqmod F (value F r) (value F a * value F b) /\ is_normal u = true /\ (u = Loose \/ (is222 F = false /\ is251 F = false /\ u = Fresh)).
  Proof.
    intros [Sa Ka] [Sb Kb].
    assert (X : exists u, op_shape F Mul s t = Some u /\ is_normal u = true /\ (u = Loose \/ (is222 F = false /\ is251 F = false /\ u = Fresh))).
    { cbn [op_shape]. destruct (is251 F) eqn:K1; destruct (is222 F) eqn:K2; destruct Ka as [-> |[(? & ? & ->)|(? & ? & ->)]]; destruct Kb as [-> |[(? & ? & ->)|(? & ? & ->)]]; try discriminate; eexists; (split; [reflexivity|]); cbn; auto. }
    destruct X as (u & E & N & U). destruct (op_tracks F HF _ _ _ _ _ _ E Sa Sb) as (r & R & Sr & V). exists u, r. auto 7.
  Qed.
  (** and of such a product with one more operand, on either side *)
  Lemma mul_prod u t a b : has_shape F u a -> (u = Loose \/ (is222 F = false /\ is251 F = false /\ u = Fresh)) -> rs t b ->
    exists r r', computes F "mul" a b r /\ normal F r /\ eqmod F (value F r) (value F a * value F b) /\
      computes F "mul" b a r' /\ normal F r' /\ eqmod F (value F r') (value F b * value F a).
  Proof.
    intros Sa U [Sb Kb].
    assert (X : exists v v', op_shape F Mul u t = Some v /\ op_shape F Mul t u = Some v' /\ is_normal v = true /\ is_normal v' = true).
    { cbn [op_shape]. destruct (is251 F) eqn:K1; destruct (is222 F) eqn:K2; destruct U as [-> |(? & ? & ->)]; destruct Kb as [-> |[(? & ? & ->)|(? & ? & ->)]]; try discriminate; eexists; eexists; (split; [reflexivity|]); (split; [reflexivity|]); cbn; auto. }
    destruct X as (v & v' & E & E' & N & N').
    destruct (op_tracks F HF _ _ _ _ _ _ E Sa Sb) as (r & R & Sr & V).
    destruct (op_tracks F HF _ _ _ _ _ _ E' Sb Sa) as (r' & R' & Sr' & V'). exists r, r'.
    split; [exact R|]. split; [exact (sh_normal F HF _ _ N Sr)|]. split; [exact V|]. split; [exact R'|]. split; [exact (sh_normal F HF _ _ N' Sr')|exact V'].
  Qed.
  Lemma sum_normal a : rep F (-1) (2 * 2 ^ fl_tb F) a -> normal F a.
  Proof.
    intros R. destruct (normal_domain F a a HF) as (_ & D & _). apply D.
    pose proof (B_pos F HF) as BP; pose proof (small_tops_ok F HF) as ST. unfold B in *. eapply rep_weaken; [exact R|lia|lia].
  Qed.

  Lemma law_add_comm a b : any_rep F a -> any_rep F b ->
    exists x y bs, computes F "add" a b x /\ computes F "add" b a y /\ encodes F x bs /\ encodes F y bs.
  Proof.
    intros A Bb. destruct (add_claim F a b HF A Bb) as (x & Rx & Vx & Sx). destruct (add_claim F b a HF Bb A) as (y & Ry & Vy & Sy).
    exists x, y, (encode F (value F a + value F b)). repeat (split; [assumption|]). split; (apply encodes_ok; [exact HF|now (assumption || apply sum_normal)|]); try assumption.
    rewrite Z.add_comm. exact Vy.
  Qed.
  Lemma law_add_assoc a b c : any_rep F a -> any_rep F b -> any_rep F c ->
    exists ab abc bc abc' bs, computes F "add" a b ab /\ computes F "add" ab c abc /\ computes F "add" b c bc /\ computes F "add" a bc abc' /\
      encodes F abc bs /\ encodes F abc' bs.
  Proof.
    intros A Bb C. destruct (add_claim F a b HF A Bb) as (ab & R1 & V1 & S1). destruct (add_claim F ab c HF) as (abc & R2 & V2 & S2); [apply sum_normal; exact S1|exact C|].
    destruct (add_claim F b c HF Bb C) as (bc & R3 & V3 & S3). destruct (add_claim F a bc HF) as (abc' & R4 & V4 & S4); [exact A|apply sum_normal; exact S3|].
    exists ab, abc, bc, abc', (encode F (value F a + value F b + value F c)). repeat (split; [assumption|]). split; (apply encodes_ok; [exact HF|now (assumption || apply sum_normal)|]); try assumption.
    - refine (eq_trans V2 _). apply eqmod_sum; [exact V1|reflexivity].
    - refine (eq_trans V4 _). rewrite <- Z.add_assoc. apply eqmod_sum; [reflexivity|exact V3].
  Qed.
  Lemma law_mul_comm a b : ring_safe F a -> ring_safe F b ->
    exists x y bs, computes F "mul" a b x /\ computes F "mul" b a y /\ encodes F x bs /\ encodes F y bs.
  Proof.
    intros A Bb. destruct (ring_rs a A) as (s & Ra). destruct (ring_rs b Bb) as (t & Rb).
    destruct (mul_rs s t a b Ra Rb) as (u & x & _ & Rx & Sx & Vx & Nx & _). destruct (mul_rs t s b a Rb Ra) as (v & y & _ & Ry & Sy & Vy & Ny & _).
    exists x, y, (encode F (value F a * value F b)). repeat (split; [assumption|]). split; apply encodes_ok; auto; try ((eapply sh_normal; [exact HF| |eassumption]; assumption); fail).
    rewrite Z.mul_comm. exact Vy.
  Qed.
  Lemma law_mul_assoc a b c : ring_safe F a -> ring_safe F b -> ring_safe F c ->
    exists ab abc bc abc' bs, computes F "mul" a b ab /\ computes F "mul" ab c abc /\ computes F "mul" b c bc /\ computes F "mul" a bc abc' /\
      encodes F abc bs /\ encodes F abc' bs.
  Proof.
    intros A Bb C. destruct (ring_rs a A) as (s & Ra). destruct (ring_rs b Bb) as (t & Rb). destruct (ring_rs c C) as (v & Rc).
    destruct (mul_rs s t a b Ra Rb) as (u & ab & _ & R1 & S1 & V1 & _ & U1). destruct (mul_rs t v b c Rb Rc) as (u' & bc & _ & R2 & S2 & V2 & _ & U2).
    destruct (mul_prod u v ab c S1 U1 Rc) as (abc & _ & R3 & N3 & V3 & _). destruct (mul_prod u' s bc a S2 U2 Ra) as (_ & abc' & _ & _ & _ & R4 & N4 & V4).
    exists ab, abc, bc, abc', (encode F (value F a * value F b * value F c)). repeat (split; [assumption|]). split; apply encodes_ok; auto.
    - refine (eq_trans V3 _). apply eqmod_mul; [exact HF|exact V1|reflexivity].
    - refine (eq_trans V4 _). rewrite <- Z.mul_assoc. apply eqmod_mul; [exact HF|reflexivity|exact V2].
  Qed.
  Lemma law_distrib a b c : ring_safe F a -> ring_safe F b -> ring_safe F c ->
    exists bc x ab ac y bs, computes F "add" b c bc /\ computes F "mul" a bc x /\ computes F "mul" a b ab /\ computes F "mul" a c ac /\
      computes F "add" ab ac y /\ encodes F x bs /\ encodes F y bs.
  Proof.
    intros A Bb C. destruct (ring_rs a A) as (s & Ra). destruct (ring_rs b Bb) as (t & Rb). destruct (ring_rs c C) as (v & Rc).
    destruct (mul_rs s t a b Ra Rb) as (u & ab & _ & R1 & S1 & V1 & N1 & _). destruct (mul_rs s v a c Ra Rc) as (u' & ac & _ & R2 & S2 & V2 & N2 & _).
    destruct (add_claim F ab ac HF) as (y & R3 & V3 & S3); [(eapply sh_any; [exact HF|eassumption])|(eapply sh_any; [exact HF|eassumption])|].
    destruct Ra as [Sa Ka]. destruct Rb as [Sb Kb]. destruct Rc as [Sc Kc].
    assert (X : exists w w', op_shape F Add t v = Some w /\ op_shape F Mul s w = Some w' /\ is_normal w' = true).
    { cbn [op_shape]. destruct (is251 F) eqn:K1; destruct (is222 F) eqn:K2; destruct Ka as [-> |[(? & ? & ->)|(? & ? & ->)]]; destruct Kb as [-> |[(? & ? & ->)|(? & ? & ->)]]; destruct Kc as [-> |[(? & ? & ->)|(? & ? & ->)]]; try discriminate;
        eexists; eexists; (split; [reflexivity|]); (split; [reflexivity|]); cbn; auto. }
    destruct X as (w & w' & E & E' & N). destruct (op_tracks F HF _ _ _ _ _ _ E Sb Sc) as (bc & R4 & S4 & V4).
    destruct (op_tracks F HF _ _ _ _ _ _ E' Sa S4) as (x & R5 & S5 & V5).
    exists bc, x, ab, ac, y, (encode F (value F a * (value F b + value F c))). repeat (split; [assumption|]). split; apply encodes_ok; auto.
    - (eapply sh_normal; [exact HF| |eassumption]; assumption).
    - refine (eq_trans V5 _). apply eqmod_mul; [exact HF|reflexivity|exact V4].
    - now apply sum_normal.
    - refine (eq_trans V3 _). rewrite Z.mul_add_distr_l. now apply eqmod_sum.
  Qed.
  Lemma law_units a : ring_safe F a -> normal F a ->
    exists zero one s p q bs z, runs F "F::zero" [] [VArr zero] [] /\ runs F "F::one" [] [VArr one] [] /\
      computes F "add" a zero s /\ computes F "mul" a one p /\ computes F "mul" a zero q /\
      encodes F a bs /\ encodes F s bs /\ encodes F p bs /\ encodes F zero z /\ encodes F q z.
  Proof.
    intros A N. destruct (constants_claim F HF) as (z & o & _ & _ & Rz & Ro & _ & _ & Cz & Vz & Co & Vo & _).
    destruct (ring_rs a A) as (s & Ra). assert (Tz : rs Near z) by (split; [apply tight_near; [exact HF|apply Cz]|auto]). assert (To : rs Near o) by (split; [apply tight_near; [exact HF|apply Co]|auto]).
    destruct (add_claim F a z HF) as (x & Rx & Vx & Sx); [now apply ring_any|apply tight_any; auto; apply Cz|].
    destruct (mul_rs s Near a o Ra To) as (u & p & _ & Rp & Sp & Vp & Np & _). destruct (mul_rs s Near a z Ra Tz) as (v & q & _ & Rq & Sq & Vq & Nq & _).
    exists z, o, x, p, q, (encode F (value F a)), (encode F 0). repeat (split; [assumption|]).
    rewrite Vz in *. rewrite Vo in *. rewrite Z.add_0_r in Vx. rewrite Z.mul_1_r in Vp. rewrite Z.mul_0_r in Vq.
    split; [apply encodes_ok; auto; reflexivity|]. split; [(apply encodes_ok; [exact HF|now (assumption || apply sum_normal)|]); try assumption|]. split; [apply encodes_ok; auto; (eapply sh_normal; [exact HF| |eassumption]; assumption)|].
    split; [apply encodes_ok; auto using canonical_normal; rewrite Vz; reflexivity|apply encodes_ok; auto; (eapply sh_normal; [exact HF| |eassumption]; assumption)].
  Qed.
  Lemma law_sub a b : normal F a -> tight F b ->
    exists zero z d s bs, runs F "F::zero" [] [VArr zero] [] /\ computes F "sub" b b z /\ computes F "sub" a b d /\ computes F "add" d b s /\
      (exists zs, encodes F zero zs /\ encodes F z zs) /\ encodes F a bs /\ encodes F s bs.
  Proof.
    intros N T. destruct (constants_claim F HF) as (o & _ & _ & _ & Ro & _ & _ & _ & Co & Vo & _). pose proof (tight_any F b HF T) as Ab.
    destruct (sub_claim F a b HF (proj1 N) Ab) as (d & Rd & _ & Vd & Sd). destruct (add_claim F d b HF) as (s & Rs & Vs & Ss); auto.
    { apply produced_any, diff_produced; auto. }
    destruct (sub_ok F b b HF Ab Ab) as (z & Rz & Sz & Vz). rewrite (tight_carry F b HF T), Z.mul_0_r, Z.add_0_r, Z.sub_diag in Vz.
    exists o, z, d, s, (encode F (value F a)). split; [exact Ro|]. split; [apply (computes_intro F 1); [auto|cbn; tauto|lia|exact Rz]|].
    repeat (split; [assumption|]). split; [|split; (apply encodes_ok; [exact HF|now (assumption || apply sum_normal)|]); try assumption; [reflexivity|]].
    - exists (encode F 0). split; apply encodes_ok; auto using canonical_normal; try (rewrite Vo; reflexivity); try (rewrite Vz; reflexivity).
      apply tight_normal; auto. eapply rep_value_tight; eauto. rewrite Vz. split; [lia|]. apply Z.pow_pos_nonneg; [lia|pose proof (nbits_pos F HF); lia].
    - refine (eq_trans Vs _). refine (eq_trans (eqmod_sum F _ _ _ _ (Vd T) eq_refl) _). unfold eqmod. f_equal. ring.
  Qed.
  Lemma law_square a : ring_safe F a -> exists x y bs, computes_unary F "F::square" "F::squared" a x /\ computes F "mul" a a y /\ encodes F x bs /\ encodes F y bs.
  Proof.
    intros A. destruct (ring_rs a A) as (s & Ra). destruct (mul_rs s s a a Ra Ra) as (u & y & _ & Ry & Sy & Vy & Ny & _).
    destruct Ra as [Sa Ka]. assert (X : exists w, un_shape F Square s = Some w /\ is_normal w = true) by (destruct Ka as [-> |[(_ & _ & ->)|(K2 & _ & ->)]]; cbn [un_shape]; try rewrite K2; eexists; split; reflexivity).
    destruct X as (w & E & N). destruct (un_tracks F HF _ _ _ _ E Sa) as (x & R & S & V).
    exists x, y, (encode F (value F a * value F a)). repeat (split; [assumption|]). split; apply encodes_ok; auto; (eapply sh_normal; [exact HF| |eassumption]; assumption).
  Qed.
End Laws.
