(** Primality criteria with certificates that the kernel can evaluate: trial
    division, Pocklington (n-1), and criteria on n+1 in the quadratic ring
    Z[sqrt dd] modulo n.  Nothing here depends on the model of the code. *)
From Coq Require Import ZArith Znumtheory Zpow_facts List Lia Permutation Setoid Morphisms Bool.
From Verif Require Import NumTheory.
Import ListNotations.
Local Open Scope Z_scope.

(** ** The ring Z[sqrt dd]: (x, y) is x + y sqrt dd *)
Notation gi := (Z * Z)%type.
Section Quadratic.
Variable dd : Z.
Definition gmul (a b : gi) : gi := (fst a * fst b + dd * (snd a * snd b), fst a * snd b + snd a * fst b).
Definition gsub (a b : gi) : gi := (fst a - fst b, snd a - snd b).
Definition norm (a : gi) : Z := fst a * fst a - dd * (snd a * snd a).
Definition gone : gi := (1, 0).
Fixpoint gpow (a : gi) (e : nat) : gi := match e with O => gone | S k => gmul a (gpow a k) end.
Definition gcong (n : Z) (a b : gi) : Prop := cong n (fst a) (fst b) /\ cong n (snd a) (snd b).

Lemma gi_eq (a b : gi) : fst a = fst b -> snd a = snd b -> a = b.
Proof. destruct a, b; simpl; congruence. Qed.
Ltac gi_ring := apply gi_eq; unfold gmul, gsub, gone; cbn [fst snd]; ring.
Lemma gmul_assoc a b c : gmul a (gmul b c) = gmul (gmul a b) c. Proof. gi_ring. Qed.
Lemma gmul_comm a b : gmul a b = gmul b a. Proof. gi_ring. Qed.
Lemma gmul_1_l a : gmul gone a = a. Proof. gi_ring. Qed.
Lemma gmul_1_r a : gmul a gone = a. Proof. gi_ring. Qed.
Lemma gmul_sub a b c : gsub (gmul a b) (gmul a c) = gmul a (gsub b c). Proof. gi_ring. Qed.
Lemma norm_mul a b : norm (gmul a b) = norm a * norm b.
Proof. unfold norm, gmul. cbn [fst snd]. ring. Qed.
Global Instance gcong_equiv n : Equivalence (gcong n).
Proof.
  split.
  - intros a. split; reflexivity.
  - intros a b [H K]. split; now symmetry.
  - intros a b c [H K] [H' K']. split; [now rewrite H|now rewrite K].
Qed.
Global Instance gcong_mul n : Proper (gcong n ==> gcong n ==> gcong n) gmul.
Proof. intros a b [H K] c d [H' K']. split; unfold gmul; cbn [fst snd]; now rewrite H, K, H', K'. Qed.
Lemma gcong_norm n a b : gcong n a b -> cong n (norm a) (norm b).
Proof. intros [H K]. unfold norm. now rewrite H, K. Qed.
Lemma gcong_sub n a b : gcong n a b <-> gcong n (gsub a b) (0, 0).
Proof.
  unfold gcong, gsub, cong. cbn [fst snd]. rewrite !Z.sub_0_r. reflexivity.
Qed.
Lemma gpow_add a x y : gpow a (x + y) = gmul (gpow a x) (gpow a y).
Proof. induction x; simpl; [now rewrite gmul_1_l|]. rewrite IHx. apply gmul_assoc. Qed.
Lemma gpow_mul a x y : gpow a (x * y) = gpow (gpow a x) y.
Proof. induction y; [now rewrite Nat.mul_0_r|]. rewrite Nat.mul_succ_r, Nat.add_comm, gpow_add, IHy. reflexivity. Qed.
Lemma gpow_cong n a b e : gcong n a b -> gcong n (gpow a e) (gpow b e).
Proof. intros H. induction e; simpl; [reflexivity|]. now rewrite IHe, H. Qed.
Lemma gpow_one e : gpow gone e = gone.
Proof. induction e; simpl; [reflexivity|]. rewrite IHe. apply gmul_1_l. Qed.
Lemma norm_one : norm gone = 1. Proof. unfold norm, gone. cbn [fst snd]. ring. Qed.
Lemma gpow_norm a e : norm (gpow a e) = norm a ^ Z.of_nat e.
Proof. induction e; [apply norm_one|]. cbn [gpow]. rewrite norm_mul, IHe, Nat2Z.inj_succ, Z.pow_succ_r by lia. reflexivity. Qed.

(** ** The order of an element modulo a prime r divides r*r-1 *)
Section Prime_r.
Variable r : Z.
Hypothesis R : prime r.
Hypothesis R3 : 2 < r.
Hypothesis RD : ~ (r | dd).
Let r0 : r <> 0. Proof. lia. Qed.

Lemma cong_dec x y : {cong r x y} + {~ cong r x y}.
Proof. unfold cong. destruct (Zdivide_dec r (x - y)); auto. Qed.
Lemma square_dec : {i | cong r (i * i) dd} + {forall i, ~ cong r (i * i) dd}.
Proof.
  destruct (find (fun i => if cong_dec (i * i) dd then true else false) (0 :: range r)) as [i|] eqn:E.
  - left. exists i. apply find_some in E. destruct E as [_ E]. destruct (cong_dec (i * i) dd); auto; discriminate.
  - right. intros i H. pose proof (find_none _ _ E (i mod r)) as N.
    destruct (cong_dec (i mod r * (i mod r)) dd) as [Y|Y].
    + assert (IN : In (i mod r) (0 :: range r)).
      { pose proof (Z.mod_pos_bound i r ltac:(lia)). destruct (Z.eq_dec (i mod r) 0) as [->|]; [now left|right]. apply in_range; lia. }
      specialize (N IN). cbv beta in N. destruct (cong_dec (i mod r * (i mod r)) dd); [discriminate|contradiction].
    + apply Y. rewrite (cong_mod r i) by assumption. exact H.
Qed.

(** when dd is not a square, only 0 has norm 0 *)
Lemma norm_zero a : (forall i, ~ cong r (i * i) dd) -> (r | norm a) -> gcong r a (0, 0).
Proof.
  intros NS H. unfold norm in H. destruct a as [x y]. cbn [fst snd] in H. apply div0 in H.
  destruct (Zdivide_dec r y) as [D|D].
  - split; cbn [fst snd]; apply div0; [|exact D]. apply div0 in D. rewrite D in H.
    rewrite Z.mul_0_l, Z.mul_0_r, Z.sub_0_r in H. apply cong0 in H. apply prime_mult in H; auto. tauto.
  - exfalso. apply (NS (x * y ^ (r - 2))). pose proof (fermat_inverse r y R D) as I.
    assert (E : cong r (x * x) (dd * (y * y))) by now apply cong0.
    replace (x * y ^ (r - 2) * (x * y ^ (r - 2))) with (x * x * (y ^ (r - 2) * y ^ (r - 2))) by ring. rewrite E.
    replace (dd * (y * y) * (y ^ (r - 2) * y ^ (r - 2))) with (dd * (y ^ (r - 2) * y * (y ^ (r - 2) * y))) by ring. rewrite I. apply cong_eq. ring.
Qed.

Definition reduce (a : gi) : gi := (fst a mod r, snd a mod r).
Lemma reduce_cong a : gcong r (reduce a) a.
Proof. split; apply cong_mod; assumption. Qed.
Definition cells : list gi := list_prod (0 :: range r) (0 :: range r).
Definition units : list gi := tl cells.
Lemma in_digits x : In x (0 :: range r) <-> 0 <= x < r.
Proof. simpl. rewrite in_range by lia. lia. Qed.
Lemma digits_nodup : NoDup (0 :: range r).
Proof. constructor; [|apply range_nodup]. intros H. apply in_range in H; lia. Qed.
Lemma prod_nodup (l m : list Z) : NoDup l -> NoDup m -> NoDup (list_prod l m).
Proof.
  intros L M. induction L as [|x l NI L IH]; [constructor|]. cbn [list_prod].
  assert (A : NoDup (map (fun y => (x, y)) m)) by (apply FinFun.Injective_map_NoDup; auto; intros u v E; congruence).
  assert (D : forall z, In z (map (fun y => (x, y)) m) -> ~ In z (list_prod l m)).
  { intros z I J. apply in_map_iff in I. destruct I as (y & <- & _). apply in_prod_iff in J. tauto. }
  revert A D. generalize (map (fun y => (x, y)) m). intros k. induction k as [|z k IK]; intros A D; [exact IH|].
  inversion A; subst. cbn [app]. constructor; [|apply IK; auto; intros; apply D; now right].
  intros J. apply in_app_or in J. destruct J as [J|J]; [auto|]. apply (D z); [now left|exact J].
Qed.
Lemma cells_units : cells = (0, 0) :: units. Proof. reflexivity. Qed.
Lemma units_nodup : NoDup units.
Proof. pose proof (prod_nodup _ _ digits_nodup digits_nodup) as N. fold cells in N. rewrite cells_units in N. now inversion N. Qed.
Lemma in_units a : In a units <-> 0 <= fst a < r /\ 0 <= snd a < r /\ a <> (0, 0).
Proof.
  pose proof (prod_nodup _ _ digits_nodup digits_nodup) as N. fold cells in N. rewrite cells_units in N. inversion N as [|? ? NI _]; subst.
  assert (C : In a cells <-> 0 <= fst a < r /\ 0 <= snd a < r) by (destruct a; unfold cells; rewrite in_prod_iff, !in_digits; reflexivity).
  rewrite cells_units in C. simpl in C. split.
  - intros I. assert (X : (0, 0) = a \/ In a units) by auto. apply C in X. repeat split; try tauto. intros ->. auto.
  - intros (X & Y & Z0). destruct C as [_ C]. destruct C as [C|C]; auto. congruence.
Qed.
Lemma units_length : Z.of_nat (length units) = r * r - 1.
Proof.
  assert (E : length cells = S (length units)) by (rewrite cells_units; reflexivity).
  assert (F : length cells = Nat.mul (length (0 :: range r)) (length (0 :: range r))) by apply prod_length.
  assert (G : Z.of_nat (length (0 :: range r)) = r) by (cbn [length]; unfold range; rewrite map_length, seq_length; lia).
  rewrite E in F. assert (Z.of_nat (S (length units)) = r * r) by (rewrite F, Nat2Z.inj_mul, G; reflexivity). lia.
Qed.
Definition gprod (l : list gi) : gi := fold_right gmul gone l.
Lemma gprod_perm l m : Permutation l m -> gprod l = gprod m.
Proof.
  induction 1; simpl; [reflexivity|congruence| |congruence].
  rewrite !gmul_assoc. f_equal. apply gmul_comm.
Qed.
Lemma gprod_scaled a l : gcong r (gprod (map (fun x => reduce (gmul a x)) l)) (gmul (gpow a (length l)) (gprod l)).
Proof.
  induction l as [|x l IH]; [cbn [map gprod fold_right length gpow]; now rewrite gmul_1_l|]. cbn [map gprod fold_right length gpow].
  fold (gprod (map (fun x => reduce (gmul a x)) l)) (gprod l). rewrite IH, reduce_cong.
  rewrite <- !gmul_assoc. rewrite (gmul_assoc x), (gmul_comm x), <- (gmul_assoc _ x). reflexivity.
Qed.
Lemma gprod_norm l : (forall x, In x l -> ~ (r | norm x)) -> ~ (r | norm (gprod l)).
Proof.
  induction l as [|x l IH]; cbn [gprod fold_right]; intros H D.
  - rewrite norm_one in D. apply Z.divide_1_r_nonneg in D; lia.
  - fold (gprod l) in D. rewrite norm_mul in D. apply prime_mult in D; auto. destruct D as [D|D]; [apply (H x); auto; now left|].
    apply IH; auto. intros; apply H; now right.
Qed.
Lemma reduced_zero a : 0 <= fst a < r -> 0 <= snd a < r -> gcong r a (0, 0) -> a = (0, 0).
Proof.
  intros X Y [H K]. cbn [fst snd] in *. apply cong_mod_eq in H; auto. apply cong_mod_eq in K; auto.
  rewrite Zmod_0_l, Z.mod_small in H, K by assumption. apply gi_eq; assumption.
Qed.
Lemma norm_of_zero a : gcong r a (0, 0) -> (r | norm a).
Proof.
  intros H. apply gcong_norm in H. replace (norm (0, 0)) with 0 in H by (unfold norm; cbn [fst snd]; ring). apply cong0, H.
Qed.

Lemma order_nonsquare a : (forall i, ~ cong r (i * i) dd) -> ~ (r | norm a) -> gcong r (gpow a (Z.to_nat (r * r - 1))) gone.
Proof.
  intros NS A. set (f := fun x => reduce (gmul a x)).
  assert (UN : forall x, In x units -> ~ (r | norm x)).
  { intros x I D. apply in_units in I. destruct I as (X & Y & N). apply N, reduced_zero; auto. now apply norm_zero. }
  assert (CA : forall u v, gcong r (gmul a u) (gmul a v) -> gcong r u v).
  { intros u v H. apply gcong_sub in H. rewrite gmul_sub in H. apply norm_of_zero in H. rewrite norm_mul in H. apply prime_mult in H; auto.
    destruct H as [H|H]; [contradiction|]. apply gcong_sub. now apply norm_zero. }
  assert (PM : Permutation (map f units) units).
  { apply NoDup_Permutation_bis.
    - assert (K : forall l, (forall x, In x l -> In x units) -> NoDup l -> NoDup (map f l)).
      { induction l as [|x l IH]; intros RR N; [constructor|]. inversion N as [|? ? NI N']; subst. cbn [map]. constructor; [|apply IH; auto; intros; apply RR; now right].
        intros I. apply in_map_iff in I. destruct I as (y & E & I). apply NI. replace x with y; [exact I|].
        assert (Y : In y units) by (apply RR; now right). assert (X : In x units) by (apply RR; now left).
        apply in_units in X. apply in_units in Y. destruct X as (X1 & X2 & _). destruct Y as (Y1 & Y2 & _).
        assert (C : gcong r y x) by (apply CA; rewrite <- (reduce_cong (gmul a y)), <- (reduce_cong (gmul a x)); fold (f x) (f y); rewrite E; reflexivity).
        destruct C as [C1 C2]. apply cong_mod_eq in C1; auto. apply cong_mod_eq in C2; auto. rewrite !Z.mod_small in C1, C2 by assumption. now apply gi_eq. }
      apply K; [auto|apply units_nodup].
    - rewrite map_length. apply Nat.le_refl.
    - intros y I. apply in_map_iff in I. destruct I as (x & <- & I). apply in_units. unfold f, reduce. cbn [fst snd].
      repeat split; try (apply Z.mod_pos_bound; lia).
      intros E. assert (G : gcong r (gmul a x) (0, 0)) by (rewrite <- (reduce_cong (gmul a x)); unfold reduce; rewrite E; reflexivity).
      apply norm_of_zero in G. rewrite norm_mul in G. apply prime_mult in G; auto. destruct G as [G|G]; [auto|]. now apply (UN x). }
  apply gprod_perm in PM. pose proof (gprod_scaled a units) as S. fold f in S. rewrite PM in S.
  replace (length units) with (Z.to_nat (r * r - 1)) in S by (rewrite <- units_length; lia).
  set (P := gprod units) in *. set (g := gpow a (Z.to_nat (r * r - 1))) in *.
  assert (H : gcong r (gmul P gone) (gmul P g)) by (rewrite gmul_1_r, (gmul_comm P g); exact S).
  apply gcong_sub in H. rewrite gmul_sub in H. apply norm_of_zero in H. rewrite norm_mul in H. apply prime_mult in H; auto.
  destruct H as [H|H]; [exfalso; revert H; now apply gprod_norm|]. symmetry. apply gcong_sub. now apply norm_zero.
Qed.

(** when i*i = dd, the two maps x + yi and x - yi are multiplicative *)
Definition ev (i : Z) (a : gi) : Z := fst a + snd a * i.
Lemma ev_mul i a b : cong r (i * i) dd -> cong r (ev i (gmul a b)) (ev i a * ev i b).
Proof.
  intros [k K]. exists (- (snd a * snd b) * k). unfold ev, gmul. cbn [fst snd].
  replace (fst a * fst b + dd * (snd a * snd b) + (fst a * snd b + snd a * fst b) * i - (fst a + snd a * i) * (fst b + snd b * i))
    with (- (snd a * snd b) * (i * i - dd)) by ring. rewrite K. ring.
Qed.
Lemma ev_pow i a e : cong r (i * i) dd -> cong r (ev i (gpow a e)) (ev i a ^ Z.of_nat e).
Proof.
  intros I. induction e; [unfold ev; cbn; reflexivity|]. cbn [gpow]. rewrite ev_mul by assumption. rewrite IHe, Nat2Z.inj_succ, Z.pow_succ_r by lia. reflexivity.
Qed.
Lemma order_square i a : cong r (i * i) dd -> ~ (r | norm a) -> gcong r (gpow a (Z.to_nat (r * r - 1))) gone.
Proof.
  intros I A.
  assert (NE : norm a = ev i a * ev (- i) a + snd a * snd a * (i * i - dd)) by (unfold norm, ev; ring).
  assert (DV : forall j, (r | ev j a) -> (r | ev i a * ev (- i) a) -> (r | norm a)).
  { intros j _ H. rewrite NE. apply Z.divide_add_r; auto. apply Z.divide_mul_r. exact I. }
  assert (J : cong r (- i * - i) dd) by (replace (- i * - i) with (i * i) by ring; exact I).
  assert (EV : forall j, cong r (j * j) dd -> ~ (r | ev j a) -> cong r (ev j (gpow a (Z.to_nat (r * r - 1)))) 1).
  { intros j Hj ND. rewrite ev_pow by assumption. rewrite Z2Nat.id by nia. replace (r * r - 1) with ((r - 1) * (r + 1)) by ring.
    rewrite Z.pow_mul_r by lia. etransitivity; [apply cong_pow, fermat; auto|]. rewrite Z.pow_1_l by lia. reflexivity. }
  pose proof (EV i I ltac:(intros D; apply A, (DV i D); now apply Z.divide_mul_l)) as E1.
  pose proof (EV (- i) J ltac:(intros D; apply A, (DV (- i) D); now apply Z.divide_mul_r)) as E2.
  set (g := gpow a (Z.to_nat (r * r - 1))) in *. unfold ev in E1, E2.
  assert (R2 : ~ (r | 2)) by (intros D; apply Z.divide_pos_le in D; lia).
  assert (RI : ~ (r | i)).
  { intros D. assert (X : (r | i * i - (i * i - dd))) by (apply Z.divide_sub_r; [now apply Z.divide_mul_l|exact I]).
    replace (i * i - (i * i - dd)) with dd in X by ring. contradiction. }
  assert (S1 : (r | 2 * (fst g - 1))).
  { replace (2 * (fst g - 1)) with ((fst g + snd g * i - 1) + (fst g + snd g * - i - 1)) by ring. now apply Z.divide_add_r. }
  assert (S2 : (r | 2 * (i * snd g))).
  { replace (2 * (i * snd g)) with ((fst g + snd g * i - 1) - (fst g + snd g * - i - 1)) by ring. now apply Z.divide_sub_r. }
  apply prime_mult in S1; auto. apply prime_mult in S2; auto. destruct S1 as [?|S1]; [contradiction|]. destruct S2 as [?|S2]; [contradiction|].
  apply prime_mult in S2; auto. destruct S2 as [?|S2]; [contradiction|].
  split; [exact S1|]. cbn [fst snd gone]. now apply div0.
Qed.
Lemma gaussian_order a : ~ (r | norm a) -> gcong r (gpow a (Z.to_nat (r * r - 1))) gone.
Proof. intros A. destruct square_dec as [[i I]|N]; [now apply (order_square i)|now apply order_nonsquare]. Qed.

(** exponents at which the power is an ordinary integer *)
Lemma rational_gcd a x y : ~ (r | norm a) -> 0 <= x -> 0 <= y ->
  (r | snd (gpow a (Z.to_nat x))) -> (r | snd (gpow a (Z.to_nat y))) -> (r | snd (gpow a (Z.to_nat (Z.gcd x y)))).
Proof.
  intros A X Y. apply (gcd_exponent (fun e => (r | snd (gpow a (Z.to_nat e))))); auto; [exists 0; reflexivity|].
  clear x y X Y. intros x y X Y HX HY. pose proof (Z.mod_pos_bound x y Y). assert (0 <= x / y) by (apply Z.div_pos; lia).
  assert (E : Z.to_nat x = (Z.to_nat y * Z.to_nat (x / y) + Z.to_nat (x mod y))%nat).
  { rewrite <- Z2Nat.inj_mul, <- Z2Nat.inj_add by (try apply Z.mul_nonneg_nonneg; lia). f_equal. apply Z.div_mod. lia. }
  rewrite E, gpow_add, gpow_mul in HX. set (b := gpow a (Z.to_nat y)) in *. set (t := gpow a (Z.to_nat (x mod y))) in *.
  assert (NB : ~ (r | norm b)).
  { unfold b. rewrite gpow_norm. rewrite Z2Nat.id by lia. intros D. apply div0 in D.
    clear - D A R r0 Y. revert D. pattern y. apply natlike_ind; [|intros z Z0 IH D|lia].
    - intros D. rewrite Z.pow_0_r in D. apply cong0 in D. pose proof (prime_ge_2 r R). apply Z.divide_1_r_nonneg in D; lia.
    - rewrite Z.pow_succ_r in D by assumption. apply cong0 in D. apply prime_mult in D; auto. destruct D as [D|D]; [auto|]. apply IH. now apply div0. }
  assert (BP : forall d, (r | snd (gpow b d)) /\ ~ (r | fst (gpow b d))).
  { intros d. assert (S : (r | snd (gpow b d))).
    { induction d as [|d IH]; [exists 0; reflexivity|]. cbn [gpow]. unfold gmul. cbn [snd]. apply Z.divide_add_r; [now apply Z.divide_mul_r|now apply Z.divide_mul_l]. }
    split; [exact S|]. intros FD.
    assert (K : forall e, ~ (r | norm (gpow b e))).
    { induction e as [|e IH]; [change (norm (gpow b 0)) with (norm gone); rewrite norm_one; intros D; apply Z.divide_1_r_nonneg in D; lia|].
      cbn [gpow]. rewrite norm_mul. intros D. apply prime_mult in D; auto. tauto. }
    apply (K d). unfold norm. apply Z.divide_sub_r; [now apply Z.divide_mul_l|]. apply Z.divide_mul_r. now apply Z.divide_mul_l. }
  destruct (BP (Z.to_nat (x / y))) as [S F]. unfold gmul in HX. cbn [snd] in HX.
  assert (D : (r | fst (gpow b (Z.to_nat (x / y))) * snd t)).
  { apply (Z.divide_add_cancel_r r (snd (gpow b (Z.to_nat (x / y))) * fst t)); [now apply Z.divide_mul_l|]. now rewrite Z.add_comm. }
  apply prime_mult in D; auto. tauto.
Qed.
End Prime_r.

(** a prime power q^e dividing n+1 divides r*r-1 for every prime factor r of n *)
Lemma gaussian_factor n a q e k r :
  1 < n -> n mod 2 = 1 -> prime q -> 0 <= e -> n + 1 = k * q -> (q ^ e | n + 1) -> 
  Z.gcd dd n = 1 -> Z.gcd (norm a) n = 1 -> (n | snd (gpow a (Z.to_nat (n + 1)))) -> Z.gcd (snd (gpow a (Z.to_nat k))) n = 1 ->
  prime r -> (r | n) -> 2 < r /\ (q ^ e | r * r - 1).
Proof.
  intros N O Q E K D ND NA H G R RN. pose proof (prime_ge_2 r R). pose proof (prime_ge_2 q Q).
  assert (R3 : 2 < r).
  { destruct (Z.eq_dec r 2) as [->|]; [|lia]. apply Z.mod_divide in RN; [|lia]. lia. }
  split; [exact R3|].
  assert (DR : ~ (r | dd)).
  { intros D'. pose proof (Z.gcd_greatest _ _ _ D' RN) as Y. rewrite ND in Y. apply Z.divide_1_r_nonneg in Y; lia. }
  assert (NR : ~ (r | norm a)).
  { intros D'. pose proof (Z.gcd_greatest _ _ _ D' RN) as Y. rewrite NA in Y. apply Z.divide_1_r_nonneg in Y; lia. }
  assert (HR : (r | snd (gpow a (Z.to_nat (n + 1))))) by (eapply Z.divide_trans; eauto).
  assert (HO : (r | snd (gpow a (Z.to_nat (r * r - 1))))).
  { destruct (gaussian_order r R R3 DR a NR) as [_ X]. apply cong0, X. }
  pose proof (rational_gcd r R R3 a (n + 1) (r * r - 1) NR ltac:(lia) ltac:(nia) HR HO) as HG.
  apply (Z.divide_trans _ (Z.gcd (n + 1) (r * r - 1))); [|apply Z.gcd_divide_r].
  apply (prime_power_divides q e (n + 1) k); auto; [lia|apply Z.gcd_divide_l|]. intros [b B].
  assert (BB : 0 <= b) by (pose proof (Z.gcd_nonneg (n + 1) (r * r - 1)); nia).
  assert (X : (r | snd (gpow a (Z.to_nat k)))).
  { rewrite B, Z.mul_comm, Z2Nat.inj_mul, gpow_mul by (auto; apply Z.gcd_nonneg).
    generalize (Z.to_nat b). set (c := gpow a (Z.to_nat (Z.gcd (n + 1) (r * r - 1)))) in *. intros m. induction m as [|m IH]; [exists 0; reflexivity|].
    cbn [gpow]. unfold gmul. cbn [snd]. apply Z.divide_add_r; [now apply Z.divide_mul_r|now apply Z.divide_mul_l]. }
  pose proof (Z.gcd_greatest _ _ _ X RN) as Y. rewrite G in Y. apply Z.divide_1_r_nonneg in Y; lia.
Qed.
Lemma gorder_gcd n a x y : 0 <= x -> 0 <= y -> gcong n (gpow a (Z.to_nat x)) gone -> gcong n (gpow a (Z.to_nat y)) gone ->
  gcong n (gpow a (Z.to_nat (Z.gcd x y))) gone.
Proof.
  intros X Y. apply (gcd_exponent (fun e => gcong n (gpow a (Z.to_nat e)) gone)); auto; [reflexivity|].
  clear x y X Y. intros x y X Y HX HY. pose proof (Z.mod_pos_bound x y Y). assert (0 <= x / y) by (apply Z.div_pos; lia).
  assert (E : Z.to_nat x = (Z.to_nat y * Z.to_nat (x / y) + Z.to_nat (x mod y))%nat).
  { rewrite <- Z2Nat.inj_mul, <- Z2Nat.inj_add by (try apply Z.mul_nonneg_nonneg; lia). f_equal. apply Z.div_mod. lia. }
  rewrite E, gpow_add, gpow_mul in HX. 
  assert (C : gcong n (gpow (gpow a (Z.to_nat y)) (Z.to_nat (x / y))) gone) by (etransitivity; [apply gpow_cong, HY|]; rewrite gpow_one; reflexivity).
  rewrite C, gmul_1_l in HX. exact HX.
Qed.

(** ** One large prime factor of n+1 *)
Theorem plus_one n a q k : 2 < n -> n mod 2 = 1 -> prime q -> n + 1 = k * q -> n < (q - 1) * (q - 1) ->
  Z.gcd dd n = 1 -> Z.gcd (norm a) n = 1 -> (n | snd (gpow a (Z.to_nat (n + 1)))) -> Z.gcd (snd (gpow a (Z.to_nat k))) n = 1 -> prime n.
Proof.
  intros N O Q K B ND NA H G. destruct (prime_dec n) as [Y|Y]; [exact Y|exfalso].
  destruct (small_prime_divisor n ltac:(lia) Y) as (r & R & RN & RR).
  destruct (gaussian_factor n a q 1 k r) as [R3 D]; auto; try lia; [rewrite Z.pow_1_r; exists k; exact K|].
  rewrite Z.pow_1_r in D. replace (r * r - 1) with ((r - 1) * (r + 1)) in D by ring.
  pose proof (prime_ge_2 q Q).
  apply prime_mult in D; auto. destruct D as [D|D]; apply Z.divide_pos_le in D; nia.
Qed.

(** ** Two prime factors of n+1 whose product exceeds the square root of n: a
    prime factor of n below the root is 1, -1, t or -t modulo the product *)
Theorem plus_two n a a' q q' k k' t : 2 < n -> n mod 2 = 1 -> prime q -> prime q' -> q < q' -> n + 1 = k * q -> n + 1 = k' * q' ->
  n < (q * q' - 1) * (q * q' - 1) -> 0 < t < q * q' -> (q | t - 1) -> (q' | t + 1) -> n mod t <> 0 -> n mod (q * q' - t) <> 0 ->
  Z.gcd dd n = 1 -> Z.gcd (norm a) n = 1 -> (n | snd (gpow a (Z.to_nat (n + 1)))) -> Z.gcd (snd (gpow a (Z.to_nat k))) n = 1 ->
  Z.gcd (norm a') n = 1 -> (n | snd (gpow a' (Z.to_nat (n + 1)))) -> Z.gcd (snd (gpow a' (Z.to_nat k'))) n = 1 -> prime n.
Proof.
  intros N O Q Q' QQ K K' B T T1 T2 M1 M2 ND NA H G NA' H' G'. destruct (prime_dec n) as [Y|Y]; [exact Y|exfalso].
  destruct (small_prime_divisor n ltac:(lia) Y) as (r & R & RN & RR).
  destruct (gaussian_factor n a q 1 k r) as [R3 D]; auto; try lia; [rewrite Z.pow_1_r; exists k; exact K|].
  destruct (gaussian_factor n a' q' 1 k' r) as [_ D']; auto; try lia; [rewrite Z.pow_1_r; exists k'; exact K'|].
  rewrite Z.pow_1_r in D, D'. replace (r * r - 1) with ((r - 1) * (r + 1)) in D, D' by ring.
  pose proof (prime_ge_2 q Q). pose proof (prime_ge_2 q' Q').
  assert (RB : r < q * q' - 1) by nia.
  assert (CP : rel_prime q q').
  { apply prime_rel_prime; auto. intros [c C]. pose proof (prime_divisors q' Q' q ltac:(exists c; exact C)). lia. }
  assert (CRT : forall z, (q | z) -> (q' | z) -> (q * q' | z)).
  { intros z [u U] D2. rewrite U, Z.mul_comm in D2. apply Gauss in D2; [|now apply rel_prime_sym]. destruct D2 as [v V]. exists v. rewrite U, V. ring. }
  apply prime_mult in D; auto. apply prime_mult in D'; auto. destruct D as [D|D], D' as [D'|D'].
  - pose proof (CRT _ D D') as X. apply Z.divide_pos_le in X; lia.
  - (* r = t *)
    assert (X : (q * q' | r - t)).
    { apply CRT; [replace (r - t) with ((r - 1) - (t - 1)) by ring|replace (r - t) with ((r + 1) - (t + 1)) by ring]; now apply Z.divide_sub_r. }
    assert (E : r = t) by (destruct X as [c X]; assert (c = 0) by nia; lia). subst t. apply M1. apply Z.mod_divide; [lia|exact RN].
  - assert (X : (q * q' | r + t)).
    { apply CRT; [replace (r + t) with ((r + 1) + (t - 1)) by ring|replace (r + t) with ((r - 1) + (t + 1)) by ring]; now apply Z.divide_add_r. }
    assert (E : r = q * q' - t) by (destruct X as [c X]; assert (c = 1) by nia; lia). apply M2. rewrite <- E. apply Z.mod_divide; [lia|exact RN].
  - pose proof (CRT _ D D') as X. apply Z.divide_pos_le in X; lia.
Qed.
End Quadratic.

(** ** n + 1 = 2^b: Lucas-Lehmer, on the real parts x -> 2x^2 - 1 *)
Fixpoint chain (f : Z -> Z) (k : nat) (x : Z) : Z := match k with O => x | S j => f (chain f j x) end.
Lemma chain_real n f x0 y0 : (forall x, cong n (f x) (2 * (x * x) - 1)) -> cong n (norm (-1) (x0, y0)) 1 ->
  forall k, cong n (fst (gpow (-1) (x0, y0) (2 ^ k))) (chain f k x0) /\ cong n (norm (-1) (gpow (-1) (x0, y0) (2 ^ k))) 1.
Proof.
  intros F N. induction k as [|k [IX IN]].
  - cbn [chain]. change (2 ^ 0)%nat with 1%nat. cbn [gpow]. rewrite gmul_1_r. split; [reflexivity|exact N].
  - rewrite Nat.pow_succ_r', Nat.mul_comm, gpow_mul. set (c := gpow (-1) (x0, y0) (2 ^ k)) in *. cbn [gpow]. rewrite gmul_1_r. split.
    + cbn [chain]. rewrite F, <- IX. unfold gmul. cbn [fst]. unfold norm in IN.
      replace (fst c * fst c + -1 * (snd c * snd c)) with (2 * (fst c * fst c) - (fst c * fst c - -1 * (snd c * snd c))) by ring. now rewrite IN.
    + rewrite norm_mul, IN. reflexivity.
Qed.
Theorem lucas_lehmer n b f x0 y0 : (0 < b)%nat -> n = 2 ^ Z.of_nat b - 1 -> 2 < n -> (forall x, cong n (f x) (2 * (x * x) - 1)) ->
  cong n (norm (-1) (x0, y0)) 1 -> cong n (chain f (b - 1) x0) (-1) -> prime n.
Proof.
  intros B NB N F NN C. destruct (prime_dec n) as [Y|Y]; [exact Y|exfalso].
  destruct (small_prime_divisor n ltac:(lia) Y) as (r & R & RN & RR). pose proof (prime_ge_2 r R).
  assert (R3 : 2 < r).
  { destruct (Z.eq_dec r 2) as [->|]; [|lia]. destruct RN as [c RN]. destruct b; [lia|]. rewrite Nat2Z.inj_succ, Z.pow_succ_r in NB by lia. lia. }
  destruct (chain_real n f x0 y0 F NN (b - 1)) as [HX HN]. rewrite C in HX. set (a := (x0, y0)) in *.
  assert (NR : ~ (r | norm (-1) a)).
  { intros D. apply (cong_weaken n r) in NN; auto; try lia. apply div0 in D. rewrite D in NN. symmetry in NN. apply cong0 in NN. apply Z.divide_1_r_nonneg in NN; lia. }
  assert (RM : ~ (r | -1)) by (intros D; apply Z.divide_opp_r in D; apply Z.divide_1_r_nonneg in D; lia).
  pose proof (gaussian_order (-1) r R R3 RM a NR) as HO.
  assert (H1 : gcong r (gpow (-1) a (2 ^ (b - 1))) (-1, 0)).
  { apply (cong_weaken n r) in HX; auto; try lia. apply (cong_weaken n r) in HN; auto; try lia. unfold norm in HN. rewrite HX in HN.
    split; [exact HX|]. cbn [snd]. apply div0. assert (D : (r | snd (gpow (-1) a (2 ^ (b - 1))) * snd (gpow (-1) a (2 ^ (b - 1))))).
    { apply cong0. transitivity (-1 * -1 - -1 * (snd (gpow (-1) a (2 ^ (b - 1))) * snd (gpow (-1) a (2 ^ (b - 1)))) - 1); [apply cong_eq; ring|]. rewrite HN. reflexivity. }
    apply prime_mult in D; tauto. }
  assert (P2 : forall m, Z.to_nat (2 ^ Z.of_nat m) = (2 ^ m)%nat).
  { induction m as [|m IH]; [reflexivity|]. rewrite Nat2Z.inj_succ, Z.pow_succ_r, Z2Nat.inj_mul, IH by (try apply Z.pow_nonneg; lia). rewrite Nat.pow_succ_r'. reflexivity. }
  assert (H2 : gcong r (gpow (-1) a (Z.to_nat (2 ^ Z.of_nat b))) gone).
  { rewrite P2. replace b with (S (b - 1)) by lia. rewrite Nat.pow_succ_r', Nat.mul_comm, gpow_mul. cbn [gpow]. rewrite gmul_1_r, H1. reflexivity. }
  pose proof (gorder_gcd (-1) r a (2 ^ Z.of_nat b) (r * r - 1) ltac:(apply Z.pow_nonneg; lia) ltac:(nia) H2 HO) as HG.
  assert (D : (2 ^ Z.of_nat b | r * r - 1)).
  { apply (Z.divide_trans _ (Z.gcd (2 ^ Z.of_nat b) (r * r - 1))); [|apply Z.gcd_divide_r].
    apply (prime_power_divides 2 (Z.of_nat b) (2 ^ Z.of_nat b) (2 ^ Z.of_nat (b - 1))); auto using prime_2; try lia;
      [rewrite <- (Z.pow_1_r 2) at 3; rewrite <- Z.pow_add_r by lia; f_equal; lia|apply Z.gcd_divide_l|apply Z.divide_refl|].
    intros [c Hc]. assert (0 <= c) by (pose proof (Z.gcd_nonneg (2 ^ Z.of_nat b) (r * r - 1)); assert (0 < 2 ^ Z.of_nat (b - 1)) by (apply Z.pow_pos_nonneg; lia); nia).
    rewrite <- P2, Hc, Z.mul_comm, Z2Nat.inj_mul, gpow_mul in H1 by (auto; apply Z.gcd_nonneg).
    assert (X : gcong r (-1, 0) gone) by (rewrite <- H1; etransitivity; [apply gpow_cong, HG|]; rewrite gpow_one; reflexivity).
    destruct X as [X _]. cbn [fst gone] in X. apply (one_not_minus_one r R3). now symmetry. }
  apply Z.divide_pos_le in D; nia.
Qed.

(** ** Evaluating powers *)
(** the part of a number above bit n, and the part below *)
Fixpoint psplit (n : nat) (p : positive) : Z * Z :=
  match n with
  | O => (Zpos p, 0)
  | S m => match p with
           | xH => (0, 1)
           | xO q => let (h, l) := psplit m q in (h, Z.double l)
           | xI q => let (h, l) := psplit m q in (h, Z.succ_double l)
           end
  end.
Lemma psplit_ok n : forall p, Zpos p = fst (psplit n p) * 2 ^ Z.of_nat n + snd (psplit n p).
Proof.
  induction n as [|n IH]; intros p; [cbn [psplit fst snd]; change (2 ^ Z.of_nat 0) with 1; lia|].
  rewrite Nat2Z.inj_succ, Z.pow_succ_r by lia. destruct p as [p|p|]; cbn [psplit]; [| |cbn [fst snd]; lia];
    specialize (IH p); destruct (psplit n p) as [h l]; cbn [fst snd] in *; rewrite ?Z.double_spec, ?Z.succ_double_spec; replace (h * (2 * 2 ^ Z.of_nat n)) with (2 * (h * 2 ^ Z.of_nat n)) by ring; lia.
Qed.
(** ** Products by halves (Karatsuba): splitting at the bits in [ws] in turn *)
Definition zsplit (n : nat) (x : Z) : Z * Z :=
  match x with Z0 => (0, 0) | Zpos p => psplit n p | Zneg p => let (h, l) := psplit n p in (- h, - l) end.
Lemma zsplit_ok n x : x = fst (zsplit n x) * 2 ^ Z.of_nat n + snd (zsplit n x).
Proof.
  destruct x as [|p|p]; cbn [zsplit]; [reflexivity|apply psplit_ok|]. pose proof (psplit_ok n p) as E. destruct (psplit n p) as [h l]. cbn [fst snd] in *.
  change (Z.neg p) with (- Z.pos p). rewrite E. ring.
Qed.
Fixpoint pshift (n : nat) (p : positive) : positive := match n with O => p | S n => xO (pshift n p) end.
Definition zshift (n : nat) (x : Z) : Z := match x with Z0 => Z0 | Zpos p => Zpos (pshift n p) | Zneg p => Zneg (pshift n p) end.
Lemma pshift_ok n p : Zpos (pshift n p) = Zpos p * 2 ^ Z.of_nat n.
Proof.
  induction n as [|n IH]; cbn [pshift]; [change (2 ^ Z.of_nat 0) with 1; lia|]. rewrite Nat2Z.inj_succ, Z.pow_succ_r, Pos2Z.inj_xO, IH by lia. ring.
Qed.
Lemma zshift_ok n x : zshift n x = x * 2 ^ Z.of_nat n.
Proof.
  destruct x as [|p|p]; cbn [zshift]; [reflexivity|apply pshift_ok|]. change (Z.neg (pshift n p)) with (- Z.pos (pshift n p)).
  change (Z.neg p) with (- Z.pos p). rewrite pshift_ok. ring.
Qed.
Fixpoint kmul (ws : list nat) (x y : Z) : Z :=
  match ws with
  | [] => x * y
  | w :: ws => let (h, l) := zsplit w x in let (k, m) := zsplit w y in
               let a := kmul ws h k in let c := kmul ws l m in let d := kmul ws (h - l) (k - m) in
               zshift w (zshift w a + (a + c - d)) + c
  end.
Lemma kmul_ok ws : forall x y, kmul ws x y = x * y.
Proof.
  induction ws as [|w ws IH]; intros x y; cbn [kmul]; [reflexivity|]. pose proof (zsplit_ok w x) as X. pose proof (zsplit_ok w y) as Y.
  destruct (zsplit w x) as [h l], (zsplit w y) as [k m]. cbn [fst snd] in *. cbv zeta. rewrite !IH, !zshift_ok, X, Y. ring.
Qed.
Fixpoint ksq (ws : list nat) (x : Z) : Z :=
  match ws with
  | [] => Z.square x
  | w :: ws => let (h, l) := zsplit w x in let a := ksq ws h in let c := ksq ws l in let d := ksq ws (h - l) in
               zshift w (zshift w a + (a + c - d)) + c
  end.
Lemma ksq_ok ws : forall x, ksq ws x = x * x.
Proof.
  induction ws as [|w ws IH]; intros x; cbn [ksq]; [apply Z.square_spec|]. pose proof (zsplit_ok w x) as X.
  destruct (zsplit w x) as [h l]. cbn [fst snd] in *. cbv zeta. rewrite !IH, !zshift_ok, X. ring.
Qed.
(* where to split numbers of n bits *)
Definition halves (n : Z) : list nat :=
  if n <? 160 then [] else if n <? 220 then [Z.to_nat (n / 2)]
  else let h := Z.to_nat (n / 2) in let q := Z.to_nat (n / 4) in if n <? 440 then [h; q] else [h; q; Z.to_nat (n / 8)].
Definition zsq (x : Z) : Z := ksq (halves (Z.log2 (Z.abs x))) x.
Lemma zsq_ok x : zsq x = x * x.
Proof. apply ksq_ok. Qed.
Definition fold1 (b : nat) (c x : Z) : Z :=
  match x with
  | Z0 => 0
  | Zpos p => let (h, l) := psplit b p in h * c + l
  | Zneg p => let (h, l) := psplit b p in - (h * c + l)
  end.
Lemma fold1_ok b c x : cong (2 ^ Z.of_nat b - c) (fold1 b c x) x.
Proof.
  destruct x as [|p|p]; cbn [fold1]; [reflexivity| |]; pose proof (psplit_ok b p) as E; destruct (psplit b p) as [h l]; cbn [fst snd] in E.
  - apply (cong_intro _ _ _ (- h)). rewrite E. ring.
  - apply (cong_intro _ _ _ h). change (Z.neg p) with (- Z.pos p). rewrite E. ring.
Qed.
(** reduction modulo 2^b - c *)
Definition foldred (b : nat) (c x : Z) : Z := fold1 b c (fold1 b c x).
Lemma foldred_ok b c x : cong (2 ^ Z.of_nat b - c) (foldred b c x) x.
Proof. unfold foldred. now rewrite !fold1_ok. Qed.
(** reduction modulo any n, with a multiplier mu that approximates 2^(i+j)/n *)
Definition barrett (n i j mu x : Z) : Z :=
  let ws := halves i in x - kmul ws n (Z.shiftr (kmul ws (Z.shiftr x i) mu) j).
Lemma barrett_ok n i j mu x : cong n (barrett n i j mu x) x.
Proof. apply (cong_intro _ _ _ (- Z.shiftr (Z.shiftr x i * mu) j)). unfold barrett. cbv zeta. rewrite !kmul_ok. ring. Qed.

(* a product with a number below 2^16 needs no reduction in between *)
Fixpoint pmod (red : Z -> Z) (a : Z) (e : positive) : Z :=
  match e with
  | xH => a
  | xO e => red (zsq (pmod red a e))
  | xI e => let s := zsq (pmod red a e) in if Z.log2 a <? 16 then red (a * s) else red (kmul (halves (Z.log2 a)) a (red s))
  end.
Definition zmod (red : Z -> Z) (a e : Z) : Z := match e with Zpos p => pmod red a p | _ => 1 end.
Lemma pmod_ok n red a e : (forall x, cong n (red x) x) -> cong n (pmod red a e) (a ^ Zpos e).
Proof.
  intros R. induction e as [e IH|e IH|]; cbn [pmod]; [| |now rewrite Z.pow_1_r].
  - transitivity (a * zsq (pmod red a e)); [cbv zeta; destruct (Z.log2 a <? 16); [now rewrite R|now rewrite R, kmul_ok, R]|].
    rewrite zsq_ok, IH. rewrite Pos2Z.inj_xI, Z.pow_add_r, Z.pow_1_r, pow_double by lia. apply cong_eq. ring.
  - rewrite R, zsq_ok, IH. rewrite Pos2Z.inj_xO, pow_double by lia. reflexivity.
Qed.
Lemma zmod_ok n red a e : (forall x, cong n (red x) x) -> 0 <= e -> cong n (zmod red a e) (a ^ e).
Proof. intros R E. destruct e as [|e|e]; [reflexivity|now apply pmod_ok|lia]. Qed.

(** powers in Z[sqrt dd] *)
Definition gsq (dd : Z) (red : Z -> Z) (a : gi) : gi :=
  let xx := red (zsq (fst a)) in let yy := red (zsq (snd a)) in
  (red (xx + dd * yy), red (zsq (fst a + snd a) - xx - yy)).
Fixpoint gmod (dd : Z) (red : Z -> Z) (a : gi) (e : positive) : gi :=
  match e with
  | xH => a
  | xO e => gsq dd red (gmod dd red a e)
  | xI e => let s := gsq dd red (gmod dd red a e) in (red (fst a * fst s + dd * (snd a * snd s)), red (fst a * snd s + snd a * fst s))
  end.
Lemma gsq_ok dd n red a : (forall x, cong n (red x) x) -> gcong n (gsq dd red a) (gmul dd a a).
Proof.
  intros R. unfold gsq, gmul. split; cbn [fst snd]; rewrite !R, !zsq_ok; [reflexivity|]. apply cong_eq. ring.
Qed.
Lemma gmod_ok dd n red a e : (forall x, cong n (red x) x) -> gcong n (gmod dd red a e) (gpow dd a (Pos.to_nat e)).
Proof.
  intros R. induction e as [e IH|e IH|]; cbn [gmod]; [| |change (Pos.to_nat 1) with 1%nat; cbn [gpow]; now rewrite gmul_1_r].
  - rewrite Pos2Nat.inj_xI. cbn [gpow]. rewrite Nat.mul_comm, gpow_mul. cbn [gpow]. rewrite gmul_1_r.
    transitivity (gmul dd a (gsq dd red (gmod dd red a e))); [split; cbn [fst snd gmul]; now rewrite R|].
    now rewrite gsq_ok, IH.
  - rewrite Pos2Nat.inj_xO, Nat.mul_comm, gpow_mul. cbn [gpow]. rewrite gmul_1_r. now rewrite gsq_ok, IH.
Qed.

(** ** Checkers *)
Definition iscong (n a b : Z) : bool := (a - b) mod n =? 0.
Lemma iscong_ok n a b : n <> 0 -> iscong n a b = true -> cong n a b.
Proof. intros N H. apply Z.eqb_eq in H. now apply Z.mod_divide. Qed.
Lemma gcd_cong n a b : cong n a b -> Z.gcd a n = Z.gcd b n.
Proof.
  intros [k K]. replace a with (b + k * n) by lia. rewrite (Z.gcd_comm (b + _)), (Z.gcd_comm b). apply Z.gcd_add_mult_diag_r.
Qed.

(** trial division, by d and the k numbers after it *)
Fixpoint untouched (k : nat) (n d : Z) : bool :=
  (n <? d * d) || match k with O => false | S k => negb (n mod d =? 0) && untouched k n (d + 1) end.
Lemma untouched_ok k n : forall d, 1 < d -> untouched k n d = true -> forall r, d <= r -> r * r <= n -> ~ (r | n).
Proof.
  induction k as [|k IH]; intros d D; cbn [untouched]; rewrite orb_true_iff, Z.ltb_lt.
  - intros [H|H]; [|discriminate H]. intros r R S _. nia.
  - rewrite andb_true_iff, negb_true_iff, Z.eqb_neq. intros [H|[H K]] r R S V; [nia|].
    destruct (Z.eq_dec r d) as [->|N]; [apply H; apply Z.mod_divide; auto; lia|]. apply (IH (d + 1)) with (r := r); auto; lia.
Qed.
Definition trial (n : Z) : bool := (1 <? n) && untouched 1100 n 2.
Lemma trial_ok n : trial n = true -> prime n.
Proof.
  unfold trial. rewrite !andb_true_iff, !Z.ltb_lt. intros (A & C).
  destruct (prime_dec n) as [Y|Y]; [exact Y|exfalso]. destruct (small_prime_divisor n A Y) as (r & R & RN & RR). pose proof (prime_ge_2 r R).
  apply (untouched_ok 1100 n 2 ltac:(lia) C r); auto; lia.
Qed.

(** Pocklington; the tree shares the work of the powers a^((n-1)/q) *)
Inductive ftree := Leaf (q e : Z) | Node (l r : ftree).
Fixpoint fval (t : ftree) : Z := match t with Leaf q e => q ^ e | Node l r => fval l * fval r end.
Fixpoint flist (t : ftree) : list (Z * Z) := match t with Leaf q e => [(q, e)] | Node l r => flist l ++ flist r end.
(* a way to compute powers modulo n *)
Definition powers (n : Z) (pw : Z -> Z -> Z) : Prop := forall a e, 0 <= e -> cong n (pw a e) (a ^ e).
Lemma zmod_powers n red : (forall x, cong n (red x) x) -> powers n (zmod red).
Proof. intros R a e E. now apply zmod_ok. Qed.
Fixpoint fcheck (pw : Z -> Z -> Z) (n b : Z) (t : ftree) : bool :=
  match t with
  | Leaf q e => (1 <? q) && (0 <? e) && (Z.gcd (pw b (q ^ (e - 1)) - 1) n =? 1)
  | Node l r => fcheck pw n (pw b (fval r)) l && fcheck pw n (pw b (fval l)) r
  end.
Lemma fcheck_pos pw n t : forall b, fcheck pw n b t = true -> 0 < fval t /\ Forall (fun qe => 1 < fst qe /\ 0 < snd qe) (flist t).
Proof.
  induction t as [q e|l IL r IR]; intros b; cbn [fcheck fval flist].
  - rewrite !andb_true_iff, !Z.ltb_lt. intros ((Q & E) & _). split; [apply Z.pow_pos_nonneg; lia|]. repeat constructor; assumption.
  - rewrite andb_true_iff. intros [A B]. destruct (IL _ A). destruct (IR _ B). split; [apply Z.mul_pos_pos; assumption|]. now apply Forall_app.
Qed.
Lemma fcheck_ok n pw a t : powers n pw -> forall b j, 0 <= j -> cong n b (a ^ j) -> fcheck pw n b t = true ->
  forall q e, In (q, e) (flist t) -> Z.gcd (a ^ (j * fval t / q) - 1) n = 1.
Proof.
  intros R. induction t as [q e|l IL r IR]; intros b j J B C q' e' I; cbn [flist fval In] in *.
  - destruct I as [I|[]]. injection I as <- <-. cbn [fcheck] in C. rewrite !andb_true_iff, !Z.ltb_lt, Z.eqb_eq in C. destruct C as ((Q & E) & G).
    assert (PN : 0 <= q ^ (e - 1)) by (apply Z.pow_nonneg; lia).
    assert (X : cong n (pw b (q ^ (e - 1))) (a ^ (j * q ^ (e - 1)))).
    { etransitivity; [apply R; auto|]. etransitivity; [apply cong_pow, B|]. now rewrite <- Z.pow_mul_r. }
    etransitivity; [apply gcd_cong|exact G]. rewrite X. apply cong_eq. f_equal. f_equal.
    replace (q ^ e) with (q ^ (e - 1) * q) by (rewrite <- (Z.pow_1_r q) at 2; rewrite <- Z.pow_add_r by lia; f_equal; lia).
    rewrite Z.mul_assoc. apply Z.div_mul. lia.
  - cbn [fcheck] in C. apply andb_true_iff in C. destruct C as [A C].
    destruct (fcheck_pos _ _ _ _ A) as [PL _]. destruct (fcheck_pos _ _ _ _ C) as [PR _].
    apply in_app_or in I. destruct I as [I|I].
    + replace (j * (fval l * fval r)) with (j * fval r * fval l) by ring. apply (IL (pw b (fval r)) (j * fval r)) with (e := e'); auto; [apply Z.mul_nonneg_nonneg; lia|].
      etransitivity; [apply R; auto; lia|]. etransitivity; [apply cong_pow, B|]. rewrite <- Z.pow_mul_r by lia. reflexivity.
    + replace (j * (fval l * fval r)) with (j * fval l * fval r) by ring. apply (IR (pw b (fval l)) (j * fval l)) with (e := e'); auto; [apply Z.mul_nonneg_nonneg; lia|].
      etransitivity; [apply R; auto; lia|]. etransitivity; [apply cong_pow, B|]. rewrite <- Z.pow_mul_r by lia. reflexivity.
Qed.
Lemma fprod_app l m : fprod (l ++ m) = fprod l * fprod m.
Proof.
  induction l as [|x l IH]; cbn [app fprod fold_right]; [fold (fprod m); ring|]. fold (fprod (l ++ m)) (fprod l). rewrite IH. ring.
Qed.
Lemma fval_fprod t : fval t = fprod (flist t).
Proof.
  induction t as [q e|l IL r IR]; cbn [fval flist]; [cbn [fprod fold_right fst snd]; ring|]. now rewrite fprod_app, IL, IR.
Qed.
Fixpoint distinct (l : list Z) : bool := match l with [] => true | x :: t => forallb (fun y => negb (x =? y)) t && distinct t end.
Lemma distinct_ok l : distinct l = true -> NoDup l.
Proof.
  induction l as [|x l IH]; cbn [distinct]; [constructor|]. rewrite andb_true_iff, forallb_forall. intros [A B]. constructor; auto.
  intros I. specialize (A _ I). now rewrite Z.eqb_refl in A.
Qed.
Definition pock_with (pw : Z -> Z -> Z) (n a m : Z) (t : ftree) : bool :=
  (1 <? n) && (0 <? m) && (m * fval t =? n - 1) && (n <? (fval t + 1) * (fval t + 1)) && distinct (map fst (flist t)) &&
  iscong n (pw a (n - 1)) 1 && fcheck pw n (pw a m) t.
Theorem pock_with_ok pw n a m t : powers n pw -> pock_with pw n a m t = true -> Forall prime (map fst (flist t)) -> prime n.
Proof.
  intros R. unfold pock_with. rewrite !andb_true_iff, !Z.ltb_lt, Z.eqb_eq. intros ((((((N & M) & E) & B) & D) & C) & F) P.
  pose proof (fcheck_pos _ _ _ _ F) as [_ FP].
  apply (pocklington n a (flist t)); auto.
  - rewrite Forall_forall in *. intros x I. specialize (FP x I). split; [|tauto]. apply P, in_map, I.
  - now apply distinct_ok.
  - exists m. rewrite <- fval_fprod. now symmetry.
  - now rewrite <- fval_fprod.
  - apply iscong_ok in C; [|lia]. etransitivity; [|exact C]. symmetry. apply R; auto. lia.
  - intros q e I. rewrite <- E. apply (fcheck_ok n pw a t R (pw a m) m) with (e := e); auto; [lia|]. apply R; auto. lia.
Qed.

Definition pock (red : Z -> Z) := pock_with (zmod red).
Theorem pock_ok red n a m t : (forall x, cong n (red x) x) -> pock red n a m t = true -> Forall prime (map fst (flist t)) -> prime n.
Proof. intros R. apply pock_with_ok, zmod_powers, R. Qed.

Definition ll_check (b : nat) (x0 y0 : Z) : bool :=
  let n := 2 ^ Z.of_nat b - 1 in
  (0 <? b)%nat && (2 <? n) && iscong n (norm (-1) (x0, y0)) 1 && iscong n (chain (fun x => foldred b 1 (Z.double (zsq x) - 1)) (b - 1) x0) (-1).
Theorem ll_ok b x0 y0 : ll_check b x0 y0 = true -> prime (2 ^ Z.of_nat b - 1).
Proof.
  unfold ll_check. rewrite !andb_true_iff, Nat.ltb_lt, Z.ltb_lt. intros (((B & N) & H) & C).
  apply iscong_ok in H; [|lia]. apply iscong_ok in C; [|lia].
  eapply lucas_lehmer; eauto. intros x. rewrite foldred_ok, Z.double_spec, zsq_ok. reflexivity.
Qed.

(* the same in Z[sqrt dd] *)
Definition gpowers (dd n : Z) (gw : gi -> Z -> gi) : Prop := forall a z, 0 < z -> gcong n (gw a z) (gpow dd a (Z.to_nat z)).
Lemma to_nat_pos z : 0 < z -> Z.to_nat z = Pos.to_nat (Z.to_pos z).
Proof. destruct z; try lia; reflexivity. Qed.
Definition gmod_z (dd : Z) (red : Z -> Z) (a : gi) (z : Z) : gi := gmod dd red a (Z.to_pos z).
Lemma gmod_powers dd n red : (forall x, cong n (red x) x) -> gpowers dd n (gmod_z dd red).
Proof. intros R a z Z0. rewrite to_nat_pos by lia. now apply gmod_ok. Qed.
Definition plus_with (dd : Z) (gw : gi -> Z -> gi) (n : Z) (a : gi) (q k : Z) : bool :=
  (2 <? n) && (n mod 2 =? 1) && (n + 1 =? k * q) && (n <? (q - 1) * (q - 1)) && (0 <? k) && (Z.gcd dd n =? 1) && (Z.gcd (norm dd a) n =? 1) &&
  iscong n (snd (gw a (n + 1))) 0 && (Z.gcd (snd (gw a k)) n =? 1).
Lemma gw_zero dd gw n a z : gpowers dd n gw -> 2 < n -> 0 < z -> iscong n (snd (gw a z)) 0 = true -> (n | snd (gpow dd a (Z.to_nat z))).
Proof.
  intros R N Z0 H. apply iscong_ok in H; [|lia]. apply cong0. etransitivity; [|exact H]. symmetry. now apply (R a z).
Qed.
Lemma gw_gcd dd gw n a z : gpowers dd n gw -> 0 < z -> Z.gcd (snd (gw a z)) n = 1 -> Z.gcd (snd (gpow dd a (Z.to_nat z))) n = 1.
Proof.
  intros R Z0 C. etransitivity; [apply gcd_cong|exact C]. symmetry. now apply (R a z).
Qed.
Theorem plus_with_ok dd gw n a q k : gpowers dd n gw -> plus_with dd gw n a q k = true -> prime q -> prime n.
Proof.
  intros R. unfold plus_with. rewrite !andb_true_iff, !Z.ltb_lt, !Z.eqb_eq. intros ((((((((N & O) & K) & B) & P) & GD) & G) & H) & C) Q.
  apply (plus_one dd n a q k); auto; [apply (gw_zero dd gw); auto; lia|apply (gw_gcd dd gw); auto].
Qed.
Definition plus_check (dd : Z) (red : Z -> Z) := plus_with dd (gmod_z dd red).
Theorem plus_ok dd red n a q k : (forall x, cong n (red x) x) -> plus_check dd red n a q k = true -> prime q -> prime n.
Proof. intros R. apply plus_with_ok, gmod_powers, R. Qed.
Definition plus2_with (dd : Z) (gw : gi -> Z -> gi) (n : Z) (a a' : gi) (q q' k k' t : Z) : bool :=
  (2 <? n) && (n mod 2 =? 1) && (q <? q') && (n + 1 =? k * q) && (n + 1 =? k' * q') && (0 <? k) && (0 <? k') &&
  (n <? (q * q' - 1) * (q * q' - 1)) && (0 <? t) && (t <? q * q') && ((t - 1) mod q =? 0) && ((t + 1) mod q' =? 0) &&
  negb (n mod t =? 0) && negb (n mod (q * q' - t) =? 0) && (Z.gcd dd n =? 1) && (Z.gcd (norm dd a) n =? 1) && (Z.gcd (norm dd a') n =? 1) &&
  iscong n (snd (gw a (n + 1))) 0 && (Z.gcd (snd (gw a k)) n =? 1) &&
  iscong n (snd (gw a' (n + 1))) 0 && (Z.gcd (snd (gw a' k')) n =? 1).
Theorem plus2_with_ok dd gw n a a' q q' k k' t : gpowers dd n gw -> plus2_with dd gw n a a' q q' k k' t = true -> prime q -> prime q' -> prime n.
Proof.
  intros R. unfold plus2_with. rewrite !andb_true_iff, !negb_true_iff, !Z.ltb_lt, !Z.eqb_eq, !Z.eqb_neq.
  intros ((((((((((((((((((((N & O) & QQ) & K) & K') & KP) & KP') & B) & T) & T') & T1) & T2) & M1) & M2) & GD) & GA) & GA') & H) & C) & H') & C') Q Q'.
  pose proof (prime_ge_2 q Q). pose proof (prime_ge_2 q' Q').
  apply (plus_two dd n a a' q q' k k' t); auto; try lia; try (apply Z.mod_divide; [lia|assumption]);
    try (apply (gw_zero dd gw); auto; lia); apply (gw_gcd dd gw); auto.
Qed.
