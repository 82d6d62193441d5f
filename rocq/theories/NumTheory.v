(** Number theory over the integers that the field properties need: Fermat's
    little theorem, inverses, Euler's criterion in the two forms the library's
    square roots rest on, and Pocklington's primality criterion.  Nothing here
    depends on the model of the code. *)
From Coq Require Import ZArith Znumtheory Zpow_facts List Lia Permutation Setoid Morphisms.
Import ListNotations.
Local Open Scope Z_scope.

(** ** Congruences *)
Definition cong (n a b : Z) : Prop := (n | a - b).
Lemma cong_intro n a b k : a = b + k * n -> cong n a b.
Proof. intros ->. exists k. ring. Qed.
Lemma cong_elim n a b : cong n a b -> exists k, a = b + k * n.
Proof. intros [k K]. exists k. lia. Qed.
Global Instance cong_equiv n : Equivalence (cong n).
Proof.
  split.
  - intros a. exists 0. ring.
  - intros a b [k K]. exists (- k). lia.
  - intros a b c [k K] [l L]. exists (k + l). lia.
Qed.
Global Instance cong_add n : Proper (cong n ==> cong n ==> cong n) Z.add.
Proof. intros a b [k K] c d [l L]. exists (k + l). lia. Qed.
Global Instance cong_sub n : Proper (cong n ==> cong n ==> cong n) Z.sub.
Proof. intros a b [k K] c d [l L]. exists (k - l). lia. Qed.
Global Instance cong_mul n : Proper (cong n ==> cong n ==> cong n) Z.mul.
Proof. intros a b [k K] c d [l L]. exists (k * c + b * l). replace (a * c - b * d) with ((a - b) * c + b * (c - d)) by ring. rewrite K, L. ring. Qed.
Global Instance cong_opp n : Proper (cong n ==> cong n) Z.opp.
Proof. intros a b [k K]. exists (- k). lia. Qed.
Lemma cong_eq n a b : a = b -> cong n a b.
Proof. intros ->. reflexivity. Qed.
Lemma cong_mod n a : n <> 0 -> cong n (a mod n) a.
Proof. intros N. exists (- (a / n)). pose proof (Z.div_mod a n N). lia. Qed.
Lemma cong_mod_eq n a b : n <> 0 -> cong n a b <-> a mod n = b mod n.
Proof.
  intros N. split; intros H.
  - destruct H as [k K]. replace a with (b + k * n) by lia. now apply Z.mod_add.
  - rewrite <- (cong_mod n a N), <- (cong_mod n b N), H. reflexivity.
Qed.
Lemma cong_pow n a b e : cong n a b -> cong n (a ^ e) (b ^ e).
Proof.
  intros H. destruct (Z.le_gt_cases 0 e) as [L|L].
  - pattern e. apply natlike_ind; auto; [reflexivity|]. intros x X K. rewrite !Z.pow_succ_r by assumption. now rewrite K, H.
  - rewrite !Z.pow_neg_r by assumption. reflexivity.
Qed.
Lemma cong_weaken n m a b : m <> 0 -> n <> 0 -> (m | n) -> cong n a b -> cong m a b.
Proof. intros M N D H. unfold cong. unfold cong in H. eapply Z.divide_trans; eauto. Qed.
Lemma cong_cancel p a b c : prime p -> ~ (p | c) -> cong p (c * a) (c * b) -> cong p a b.
Proof.
  intros P NC H. pose proof (prime_ge_2 p P). unfold cong in *.
  replace (c * a - c * b) with (c * (a - b)) in H by ring.
  apply prime_mult in H; auto. tauto.
Qed.

(** ** Fermat *)
Definition range (p : Z) : list Z := map Z.of_nat (seq 1 (Z.to_nat (p - 1))).
Definition prodl (l : list Z) : Z := fold_right Z.mul 1 l.
Lemma in_range p x : 1 <= p -> In x (range p) <-> 1 <= x < p.
Proof.
  intros P. unfold range. rewrite in_map_iff. split.
  - intros (k & <- & K). apply in_seq in K. lia.
  - intros K. exists (Z.to_nat x). split; [lia|]. apply in_seq. lia.
Qed.
Lemma range_nodup p : NoDup (range p).
Proof. unfold range. apply FinFun.Injective_map_NoDup; [intros x y; lia|apply seq_NoDup]. Qed.
Lemma prodl_perm l m : Permutation l m -> prodl l = prodl m.
Proof. induction 1; simpl; lia. Qed.
Lemma prodl_coprime p l : prime p -> (forall x, In x l -> ~ (p | x)) -> ~ (p | prodl l).
Proof.
  intros P. pose proof (prime_ge_2 p P). induction l as [|x l IH]; simpl; intros H0 D.
  - apply Z.divide_1_r_nonneg in D; lia.
  - apply prime_mult in D; auto. destruct D as [D|D]; [apply (H0 x); auto|apply IH; auto].
Qed.
Lemma not_divide_range p x : 1 <= x < p -> ~ (p | x).
Proof. intros H D. apply Z.divide_pos_le in D; lia. Qed.
Lemma prodl_scaled p a l : p <> 0 -> cong p (prodl (map (fun x => (a * x) mod p) l)) (a ^ Z.of_nat (length l) * prodl l).
Proof.
  intros NZ. induction l as [|x l IH]; [reflexivity|]. cbn [map prodl fold_right length]. fold (prodl (map (fun x0 => (a * x0) mod p) l)) (prodl l).
  rewrite IH, (cong_mod p (a * x)) by assumption.
  rewrite Nat2Z.inj_succ, Z.pow_succ_r by lia. apply cong_eq. ring.
Qed.
Theorem fermat p a : prime p -> ~ (p | a) -> cong p (a ^ (p - 1)) 1.
Proof.
  intros P A. pose proof (prime_ge_2 p P) as P2.
  set (L := range p). set (f := fun x => (a * x) mod p).
  assert (PM : Permutation (map f L) L).
  { apply NoDup_Permutation_bis.
    - assert (forall l, (forall x, In x l -> 1 <= x < p) -> NoDup l -> NoDup (map f l)) as K.
      { induction l as [|x l IH]; intros R N; [constructor|]. inversion N; subst. simpl. constructor; [|apply IH; auto; intros; apply R; now right].
        intros I. apply in_map_iff in I. destruct I as (y & E & I). apply H1. replace x with y; [exact I|].
        assert (Y : 1 <= y < p) by (apply R; now right). assert (X : 1 <= x < p) by (apply R; now left).
        unfold f in E. apply cong_mod_eq in E; [|lia]. apply cong_cancel in E; auto. apply cong_mod_eq in E; [|lia]. rewrite !Z.mod_small in E by lia. exact E. }
      apply K; [|apply range_nodup]. intros x. apply in_range. lia.
    - rewrite map_length. apply Nat.le_refl.
    - intros y I. apply in_map_iff in I. destruct I as (x & <- & I). apply in_range in I; [|lia]. apply in_range; [lia|].
      pose proof (Z.mod_pos_bound (a * x) p ltac:(lia)). unfold f. enough ((a * x) mod p <> 0) by lia. intros Z0.
      apply Z.mod_divide in Z0; [|lia]. apply prime_mult in Z0; auto. destruct Z0 as [D|D]; [auto|]. revert D. apply not_divide_range. lia. }
  apply prodl_perm in PM. pose proof (prodl_scaled p a L ltac:(lia)) as S. fold f in S. rewrite PM in S.
  assert (E : Z.of_nat (length L) = p - 1) by (unfold L, range; rewrite map_length, seq_length; lia). rewrite E in S.
  apply (cong_cancel p _ _ (prodl L)); auto.
  - apply prodl_coprime; auto. intros x I. apply in_range in I; [|lia]. now apply not_divide_range.
  - rewrite Z.mul_1_r, Z.mul_comm. symmetry. exact S.
Qed.

(** ** Inverses, squares *)
Lemma fermat_inverse p a : prime p -> ~ (p | a) -> cong p (a ^ (p - 2) * a) 1.
Proof.
  intros P A. pose proof (prime_ge_2 p P). rewrite <- (fermat p a P A).
  replace (p - 1) with (Z.succ (p - 2)) by lia. rewrite Z.pow_succ_r by lia. apply cong_eq. ring.
Qed.
Lemma square_root_of_one p x : prime p -> cong p (x * x) 1 -> cong p x 1 \/ cong p x (-1).
Proof.
  intros P H. pose proof (prime_ge_2 p P). unfold cong in H.
  replace (x * x - 1) with ((x - 1) * (x - -1)) in H by ring. apply prime_mult in H; auto.
Qed.
Lemma zero_pow p a e : prime p -> 0 < e -> (p | a) -> cong p (a ^ e) 0.
Proof.
  intros P E D. pose proof (prime_ge_2 p P). assert (A : cong p a 0) by (unfold cong; now rewrite Z.sub_0_r).
  etransitivity; [apply cong_pow, A|]. rewrite Z.pow_0_l by lia. reflexivity.
Qed.
Lemma cong_0_divide p a : p <> 0 -> cong p a 0 <-> (p | a).
Proof. intros N. unfold cong. now rewrite Z.sub_0_r. Qed.
Lemma cong0 p a : cong p a 0 -> (p | a).
Proof. unfold cong. now rewrite Z.sub_0_r. Qed.
Lemma div0 p a : (p | a) -> cong p a 0.
Proof. unfold cong. now rewrite Z.sub_0_r. Qed.
Lemma pow_double a k : 0 <= k -> a ^ (2 * k) = a ^ k * a ^ k.
Proof. intros. replace (2 * k) with (k + k) by lia. now apply Z.pow_add_r. Qed.

(** the residue [x] has a square root *)
Definition sq_mod (p x : Z) : Prop := exists y, cong p (y * y) x.

Lemma euler_pm p x : prime p -> p mod 2 = 1 -> ~ (p | x) -> cong p (x ^ ((p - 1) / 2)) 1 \/ cong p (x ^ ((p - 1) / 2)) (-1).
Proof.
  intros P O X. pose proof (prime_ge_2 p P). apply square_root_of_one; auto.
  assert (E : p - 1 = 2 * ((p - 1) / 2)) by (pose proof (Z.div_mod p 2); pose proof (Z.div_mod (p - 1) 2); pose proof (Z.mod_pos_bound (p - 1) 2); lia).
  rewrite <- pow_double by (apply Z.div_pos; lia). rewrite <- E. now apply fermat.
Qed.
Lemma one_not_minus_one p : 2 < p -> ~ cong p 1 (-1).
Proof. intros P H. unfold cong in H. apply Z.divide_pos_le in H; lia. Qed.
Lemma euler_square p x : prime p -> p mod 2 = 1 -> ~ (p | x) -> sq_mod p x -> cong p (x ^ ((p - 1) / 2)) 1.
Proof.
  intros P O X [y Y]. pose proof (prime_ge_2 p P).
  assert (E : p - 1 = 2 * ((p - 1) / 2)) by (pose proof (Z.div_mod p 2); pose proof (Z.div_mod (p - 1) 2); pose proof (Z.mod_pos_bound (p - 1) 2); lia).
  transitivity ((y * y) ^ ((p - 1) / 2)); [apply cong_pow; now symmetry|].
  rewrite <- Z.pow_2_r, <- Z.pow_mul_r by (try apply Z.div_pos; lia). rewrite <- E. apply fermat; auto.
  intros D. apply X. apply cong_0_divide; [lia|]. rewrite <- Y. apply cong_0_divide; [lia|]. now apply Z.divide_mul_l.
Qed.

(** p = 3 mod 4: x^((p+1)/4) is a root of x when x^((p-1)/2) = 1 *)
Lemma root_3_mod_4 p x : p mod 4 = 3 -> 3 <= p -> cong p (x ^ ((p - 1) / 2)) 1 ->
  cong p (x ^ ((p + 1) / 4) * x ^ ((p + 1) / 4)) x.
Proof.
  intros M P H. rewrite <- pow_double by (apply Z.div_pos; lia).
  assert (E : 2 * ((p + 1) / 4) = Z.succ ((p - 1) / 2)).
  { pose proof (Z.div_mod p 4 ltac:(lia)). assert (p + 1 = (p / 4 + 1) * 4) as -> by lia. rewrite Z.div_mul by lia.
    assert (p - 1 = (2 * (p / 4) + 1) * 2) as -> by lia. rewrite Z.div_mul by lia. lia. }
  rewrite E, Z.pow_succ_r by (apply Z.div_pos; lia). rewrite H. now rewrite Z.mul_1_r.
Qed.
(** p = 5 mod 8 with i a root of -1: x^((p+3)/8), times i if x^((p-1)/4) = -1, is a root *)
Lemma root_5_mod_8 p x i : prime p -> p mod 8 = 5 -> cong p (i * i) (-1) -> cong p (x ^ ((p - 1) / 2)) 1 ->
  (cong p (x ^ ((p - 1) / 4)) 1 /\ cong p (x ^ ((p + 3) / 8) * x ^ ((p + 3) / 8)) x) \/
  (cong p (x ^ ((p - 1) / 4)) (-1) /\ cong p ((x ^ ((p + 3) / 8) * i) * (x ^ ((p + 3) / 8) * i)) x).
Proof.
  intros P M I H. pose proof (prime_ge_2 p P) as P2.
  assert (D : p = 8 * (p / 8) + 5) by (pose proof (Z.div_mod p 8); lia).
  assert (E1 : (p - 1) / 2 = 4 * (p / 8) + 2) by (rewrite D at 1; replace (8 * (p / 8) + 5 - 1) with ((4 * (p / 8) + 2) * 2) by lia; apply Z.div_mul; lia).
  assert (E2 : (p - 1) / 4 = 2 * (p / 8) + 1) by (rewrite D at 1; replace (8 * (p / 8) + 5 - 1) with ((2 * (p / 8) + 1) * 4) by lia; apply Z.div_mul; lia).
  assert (E3 : (p + 3) / 8 = p / 8 + 1) by (rewrite D at 1; replace (8 * (p / 8) + 5 + 3) with ((p / 8 + 1) * 8) by lia; apply Z.div_mul; lia).
  rewrite E1 in H. rewrite E2, E3. assert (K : 0 <= p / 8) by (apply Z.div_pos; lia). set (k := p / 8) in *.
  assert (S : x ^ (k + 1) * x ^ (k + 1) = x * x ^ (2 * k + 1)).
  { rewrite <- pow_double by lia. replace (2 * (k + 1)) with (Z.succ (2 * k + 1)) by lia. now rewrite Z.pow_succ_r by lia. }
  replace (4 * k + 2) with (2 * (2 * k + 1)) in H by lia. rewrite pow_double in H by lia.
  destruct (square_root_of_one p _ P H) as [O|O]; [left|right]; split; auto.
  - rewrite S, O. now rewrite Z.mul_1_r.
  - replace (x ^ (k + 1) * i * (x ^ (k + 1) * i)) with (x ^ (k + 1) * x ^ (k + 1) * (i * i)) by ring.
    rewrite S, O, I. apply cong_eq. ring.
Qed.

(** ** Pocklington *)
Lemma prime_divisor n : 1 < n -> exists r, prime r /\ (r | n).
Proof.
  intros N. assert (G : forall k, 0 <= k -> forall n, 1 < n <= k -> exists r, prime r /\ (r | n)).
  { intros k K. pattern k. apply natlike_ind; auto; [lia|]. intros x X IH m M.
    destruct (prime_dec m) as [Y|Y]; [exists m; split; [auto|apply Z.divide_refl]|].
    destruct (not_prime_divide m ltac:(lia) Y) as (d & D & DM).
    destruct (IH d ltac:(lia)) as (r & R & RD). exists r. split; auto. eapply Z.divide_trans; eauto. }
  apply (G n); lia.
Qed.
Lemma small_prime_divisor n : 1 < n -> ~ prime n -> exists r, prime r /\ (r | n) /\ r * r <= n.
Proof.
  intros N Y. destruct (not_prime_divide n N Y) as (d & D & [e E]).
  assert (1 < e) by nia.
  destruct (Z.le_gt_cases d e).
  - destruct (prime_divisor d) as (r & R & RD); [lia|]. exists r. split; auto. pose proof (Z.divide_pos_le r d ltac:(lia) RD).
    pose proof (prime_ge_2 r R). split; [|nia]. eapply Z.divide_trans; eauto. exists e. lia.
  - destruct (prime_divisor e) as (r & R & RD); [lia|]. exists r. split; auto. pose proof (Z.divide_pos_le r e ltac:(lia) RD).
    pose proof (prime_ge_2 r R). split; [|nia]. eapply Z.divide_trans; eauto. exists d. lia.
Qed.

(** an operation with powers that have value 1 at x and y has value 1 at their gcd *)
Lemma gcd_exponent (Q : Z -> Prop) :
  Q 0 -> (forall x y, 0 <= x -> 0 < y -> Q x -> Q y -> Q (x mod y)) ->
  forall x y, 0 <= x -> 0 <= y -> Q x -> Q y -> Q (Z.gcd x y).
Proof.
  intros Q0 M x y X Y. revert x X. pattern y. apply Zlt_0_ind; auto. clear y Y. intros y IH Y x X QX QY.
  destruct (Z.eq_dec y 0) as [->|N]; [now rewrite Z.gcd_0_r, Z.abs_eq|].
  pose proof (Z.mod_pos_bound x y ltac:(lia)).
  rewrite Z.gcd_comm, <- Z.gcd_mod by lia. rewrite Z.gcd_comm. apply IH; auto; try lia. apply M; auto; lia.
Qed.
Lemma pow_gcd n a x y : 0 <= x -> 0 <= y -> cong n (a ^ x) 1 -> cong n (a ^ y) 1 -> cong n (a ^ Z.gcd x y) 1.
Proof.
  intros X Y. apply (gcd_exponent (fun e => cong n (a ^ e) 1)); auto; [reflexivity|].
  clear. intros x y X Y HX HY. pose proof (Z.mod_pos_bound x y Y).
  assert (0 <= x / y) by (apply Z.div_pos; lia).
  rewrite (Z.div_mod x y) in HX by lia. rewrite Z.pow_add_r, Z.pow_mul_r in HX by (try apply Z.mul_nonneg_nonneg; lia).
  assert (E : cong n ((a ^ y) ^ (x / y)) 1) by (etransitivity; [apply cong_pow, HY|]; rewrite Z.pow_1_l by lia; reflexivity).
  rewrite E in HX. now rewrite Z.mul_1_l in HX.
Qed.
(** if g divides m = q k but not k, then every power of q dividing m divides g *)
Lemma prime_power_divides q e m k g : prime q -> 0 <= e -> 0 < m -> m = k * q -> (g | m) -> (q ^ e | m) -> ~ (g | k) -> (q ^ e | g).
Proof.
  intros Q E M MK [c G] D NG. pose proof (prime_ge_2 q Q).
  assert (NC : ~ (q | c)).
  { intros [b B]. apply NG. exists b. apply (Z.mul_reg_r _ _ q); [lia|]. rewrite <- MK, G, B. ring. }
  apply (Gauss _ c); [now rewrite <- G|].
  assert (R : rel_prime q c) by (apply prime_rel_prime; auto).
  apply rel_prime_sym. apply rel_prime_Zpower_r; auto. now apply rel_prime_sym.
Qed.
Lemma pocklington_factor n a q e k r :
  1 < n -> prime q -> 0 <= e -> n - 1 = k * q -> (q ^ e | n - 1) -> cong n (a ^ (n - 1)) 1 -> Z.gcd (a ^ k - 1) n = 1 ->
  prime r -> (r | n) -> (q ^ e | r - 1).
Proof.
  intros N Q E K D H G R RN. pose proof (prime_ge_2 r R). pose proof (prime_ge_2 q Q).
  assert (HR : cong r (a ^ (n - 1)) 1) by (apply (cong_weaken n); auto; lia).
  assert (RA : ~ (r | a)).
  { intros RA. rewrite (zero_pow r a (n - 1)) in HR; auto; [|lia]. symmetry in HR. apply cong_0_divide in HR; [|lia]. apply Z.divide_1_r_nonneg in HR; lia. }
  pose proof (pow_gcd r a (n - 1) (r - 1) ltac:(lia) ltac:(lia) HR (fermat r a R RA)) as HG.
  apply (Z.divide_trans _ (Z.gcd (n - 1) (r - 1))); [|apply Z.gcd_divide_r].
  apply (prime_power_divides q e (n - 1) k); auto; [lia|apply Z.gcd_divide_l|]. intros [b B].
  assert (BB : 0 <= b) by (pose proof (Z.gcd_nonneg (n - 1) (r - 1)); nia).
  assert (X : cong r (a ^ k) 1).
  { rewrite B, Z.mul_comm, Z.pow_mul_r by (auto; apply Z.gcd_nonneg). etransitivity; [apply cong_pow, HG|]. rewrite Z.pow_1_l by lia. reflexivity. }
  unfold cong in X. pose proof (Z.gcd_greatest _ _ _ X RN) as Y. rewrite G in Y. apply Z.divide_1_r_nonneg in Y; lia.
Qed.
(** distinct prime powers each dividing x: so does their product *)
Definition fprod (l : list (Z * Z)) : Z := fold_right (fun qe acc => fst qe ^ snd qe * acc) 1 l.
Lemma fprod_divides l x : Forall (fun qe => prime (fst qe) /\ 0 <= snd qe) l -> NoDup (map fst l) ->
  (forall q e, In (q, e) l -> (q ^ e | x)) -> (fprod l | x).
Proof.
  induction l as [|[q e] l IH]; intros F N D; [apply Z.divide_1_l|]. inversion F as [|? ? [Q E] F']; subst. inversion N as [|? ? NI N']; subst.
  cbn [fprod fold_right fst snd] in *. fold (fprod l).
  assert (RP : rel_prime (q ^ e) (fprod l)).
  { clear - F' NI Q E. induction l as [|[q' e'] l IH]; [apply rel_prime_sym, rel_prime_1|]. cbn [fprod fold_right fst snd]; fold (fprod l).
    inversion F' as [|? ? [Q' E'] F'']; subst. cbn [map In fst snd] in *. apply rel_prime_mult; [|apply IH; tauto].
    apply rel_prime_Zpower; auto. apply prime_rel_prime; auto. intros DV. apply prime_div_prime in DV; auto. }
  destruct (D q e) as [b B]; [now left|].
  assert (DL : (fprod l | x)) by (apply IH; auto; intros; apply D; now right).
  rewrite B in DL |- *. rewrite Z.mul_comm. apply Z.mul_divide_mono_r. rewrite Z.mul_comm in DL.
  apply Gauss in DL; auto. now apply rel_prime_sym.
Qed.
Theorem pocklington n a l :
  1 < n -> Forall (fun qe => prime (fst qe) /\ 0 < snd qe) l -> NoDup (map fst l) -> (fprod l | n - 1) ->
  n < (fprod l + 1) * (fprod l + 1) -> cong n (a ^ (n - 1)) 1 ->
  (forall q e, In (q, e) l -> Z.gcd (a ^ ((n - 1) / q) - 1) n = 1) -> prime n.
Proof.
  intros N F ND D B H G. destruct (prime_dec n) as [Y|Y]; [exact Y|exfalso].
  destruct (small_prime_divisor n N Y) as (r & R & RN & RR). pose proof (prime_ge_2 r R).
  assert (X : (fprod l | r - 1)).
  { apply fprod_divides; auto; [eapply Forall_impl; [|exact F]; simpl; intros ? [? ?]; split; auto; lia|].
    intros q e I. rewrite Forall_forall in F. destruct (F _ I) as [Q E]. cbn [fst snd] in *. pose proof (prime_ge_2 q Q).
    assert (DE : (q ^ e | n - 1)).
    { eapply Z.divide_trans; [|exact D]. clear - I. induction l as [|x l IH]; [destruct I|]. cbn [fprod fold_right]. fold (fprod l).
      destruct I as [->|I]; [apply Z.divide_factor_l|]. apply Z.divide_mul_r. auto. }
    assert (DQ : (q | n - 1)) by (eapply Z.divide_trans; [|exact DE]; exists (q ^ (e - 1)); rewrite <- (Z.pow_1_r q) at 3; rewrite <- Z.pow_add_r by lia; f_equal; lia).
    apply (pocklington_factor n a q e ((n - 1) / q)); auto; try lia; [|now apply (G q e)].
    destruct DQ as [c C]. rewrite C, Z.div_mul by lia. reflexivity. }
  apply Z.divide_pos_le in X; [|lia].
  assert (0 < fprod l).
  { clear - F. induction F as [|[q e] l [Q E] F IH]; [reflexivity|]. cbn [fprod fold_right fst snd] in *. fold (fprod l).
    pose proof (prime_ge_2 q Q). apply Z.mul_pos_pos; [apply Z.pow_pos_nonneg; lia|exact IH]. }
  nia.
Qed.
