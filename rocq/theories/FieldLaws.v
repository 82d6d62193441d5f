(** The laws of inversion, division, the Legendre symbol and square roots, for
    encodings, in the eight fields whose powers are right. *)
From Coq Require Import ZArith Znumtheory List String Lia Bool Setoid Morphisms.
From Verif Require Import Lang Poly Kernel Fields Kfacts Ops Words Codec Normalize Methods Surface Forms Format Power
  Arith Encoding Observe NumTheory Roots Safe Machine History Laws.
Import ListNotations.
Local Open Scope string_scope.
Local Open Scope Z_scope.

Section FieldLaws.
  Variable F : fld.
  Hypothesis HF : In F all_fields.
  Let p := modulus F.
  Lemma P : prime p. Proof. now apply prime_modulus. Qed.
  Lemma P3 : 2 < p.
  Proof. pose proof P as PP. pose proof (prime_ge_2 _ PP). pose proof (odd_modulus F HF) as O. fold p in O. destruct (Z.eq_dec p 2) as [E|]; [rewrite E in O; discriminate O|lia]. Qed.
  Lemma half_pos : 0 < (p - 1) / 2. Proof. pose proof P3. apply Z.div_str_pos. lia. Qed.
  Lemma eqc x y : eqmod F x y <-> cong p x y. Proof. now apply eqmod_cong. Qed.

  (** each operation with its power *)
  Lemma inv_ex a : pow_safe F a -> exists i, computes_unary F "F::invert" "F::inverted" a i /\ pow_safe F i /\ normal F i /\ cong p (value F i) (value F a ^ (p - 2)).
  Proof.
    intros S. pose proof (safe_pow F a HF S) as HP. destruct (invert_power F a HP S) as (i & R & Si & Fi & Vi).
    pose proof (inverted_runs F a i HP R) as R'. exists i. split; [split; [apply (runsd_runs 3)|apply (runsd_runs 4)]; auto; lia|].
    split; [exact Si|]. split; [now apply fresh_normal|]. now apply eqc.
  Qed.
  Lemma mul_ex a b : pow_safe F a -> pow_safe F b -> exists o, computes F "mul" a b o /\ pow_safe F o /\ normal F o /\ cong p (value F o) (value F a * value F b).
  Proof.
    intros Sa Sb. destruct (pow_mul F a b HF Sa Sb) as (o & R & So & Fo & Vo). exists o.
    split; [apply (computes_intro F 1); [auto|cbn; tauto|lia|exact R]|]. split; [exact So|]. split; [now apply fresh_normal|]. now apply eqc.
  Qed.
  Lemma sq_ex a : pow_safe F a -> exists o, computes_unary F "F::square" "F::squared" a o /\ pow_safe F o /\ normal F o /\ cong p (value F o) (value F a * value F a).
  Proof.
    intros Sa. destruct (pow_square F a HF Sa) as (o & R & So & Fo & Vo). exists o. pose proof (squared_runs F a o HF R) as R'.
    split; [split; [apply (runsd_runs 1)|apply (runsd_runs 2)]; auto; lia|]. split; [exact So|]. split; [now apply fresh_normal|]. now apply eqc.
  Qed.
  Lemma div_ex a b : pow_safe F a -> pow_safe F b -> exists o, computes F "div" a b o /\ pow_safe F o /\ normal F o /\ cong p (value F o) (value F a * value F b ^ (p - 2)).
  Proof.
    intros Sa Sb. pose proof (safe_pow F a HF Sa) as HP. destruct (div_power F a b HP Sa Sb) as (o & R & So & Fo & Vo). exists o.
    split; [apply (computes_intro F 5); [auto|cbn; tauto|lia|exact R]|]. split; [exact So|]. split; [now apply fresh_normal|]. now apply eqc.
  Qed.
  Lemma leg_ex a : pow_safe F a -> exists r, runs F "F::legendre" [VArr a] [VArr r] [VArr a] /\ pow_safe F r /\ normal F r /\ cong p (value F r) (value F a ^ ((p - 1) / 2)).
  Proof.
    intros S. pose proof (safe_pow F a HF S) as HP. destruct (legendre_power F a HP S) as (r & R & Sr & Fr & Vr). exists r.
    split; [apply (runsd_runs 3); auto; lia|]. split; [exact Sr|]. split; [now apply fresh_normal|]. now apply eqc.
  Qed.
  Lemma enc a z : normal F a -> cong p (value F a) z -> encodes F a (encode F z).
  Proof. intros N V. apply encodes_ok; auto. now apply eqc. Qed.
  Lemma inv_inv x : cong p ((x ^ (p - 2)) ^ (p - 2)) x.
  Proof.
    pose proof P3. destruct (Zdivide_dec p x) as [D|D].
    - rewrite (zero_pow p (x ^ (p - 2)) (p - 2) P ltac:(lia)); [symmetry; now apply div0|]. apply cong0. apply zero_pow; auto using P. lia.
    - assert (D' : ~ (p | x ^ (p - 2))).
      { intros K. pose proof (fermat_inverse p x P D) as I. rewrite (div0 _ _ K) in I. symmetry in I. apply cong0, Z.divide_1_r_nonneg in I; lia. }
      pose proof (fermat_inverse p x P D) as I. pose proof (fermat_inverse p _ P D') as J. set (y := x ^ (p - 2)) in *. set (w := y ^ (p - 2)) in *.
      transitivity (w * (y * x)); [rewrite I; apply cong_eq; ring|]. rewrite Z.mul_assoc, J. apply cong_eq. ring.
  Qed.

  Lemma fl_invert_twice a : pow_safe F a -> normal F a -> exists i j bs,
    computes_unary F "F::invert" "F::inverted" a i /\ computes_unary F "F::invert" "F::inverted" i j /\ encodes F a bs /\ encodes F j bs.
  Proof.
    intros S N. destruct (inv_ex a S) as (i & Ri & Si & Ni & Vi), (inv_ex i Si) as (j & Rj & Sj & Nj & Vj).
    exists i, j, (encode F (value F a)). repeat (split; [assumption|]). split; apply enc; auto; [reflexivity|]. rewrite Vj.
    etransitivity; [|apply inv_inv]. now apply cong_pow.
  Qed.
  Lemma fl_invert_mul a b : pow_safe F a -> pow_safe F b -> exists ab l i j r bs,
    computes F "mul" a b ab /\ computes_unary F "F::invert" "F::inverted" ab l /\
    computes_unary F "F::invert" "F::inverted" a i /\ computes_unary F "F::invert" "F::inverted" b j /\ computes F "mul" i j r /\ encodes F l bs /\ encodes F r bs.
  Proof.
    intros Sa Sb. destruct (mul_ex a b Sa Sb) as (ab & Rab & Sab & _ & Vab), (inv_ex a Sa) as (i & Ri & Si & _ & Vi), (inv_ex b Sb) as (j & Rj & Sj & _ & Vj).
    destruct (inv_ex ab Sab) as (l & Rl & Sl & Nl & Vl), (mul_ex i j Si Sj) as (r & Rr & Sr & Nr & Vr).
    exists ab, l, i, j, r, (encode F (value F r)). repeat (split; [assumption|]). split; apply enc; auto; [|reflexivity].
    rewrite Vl, Vr, Vi, Vj, <- Z.pow_mul_l. now apply cong_pow.
  Qed.
  Lemma fl_div_invert a b : pow_safe F a -> pow_safe F b -> exists q i r bs,
    computes F "div" a b q /\ computes_unary F "F::invert" "F::inverted" b i /\ computes F "mul" a i r /\ encodes F q bs /\ encodes F r bs.
  Proof.
    intros Sa Sb. destruct (div_ex a b Sa Sb) as (q & Rq & Sq & Nq & Vq), (inv_ex b Sb) as (i & Ri & Si & _ & Vi), (mul_ex a i Sa Si) as (r & Rr & Sr & Nr & Vr).
    exists q, i, r, (encode F (value F q)). repeat (split; [assumption|]). split; apply enc; auto; [reflexivity|]. now rewrite Vr, Vq, Vi.
  Qed.
  Lemma fl_div_div a b c : pow_safe F a -> pow_safe F b -> pow_safe F c -> exists q l bc r bs,
    computes F "div" a b q /\ computes F "div" q c l /\ computes F "mul" b c bc /\ computes F "div" a bc r /\ encodes F l bs /\ encodes F r bs.
  Proof.
    intros Sa Sb Sc. destruct (div_ex a b Sa Sb) as (q & Rq & Sq & _ & Vq), (mul_ex b c Sb Sc) as (bc & Rbc & Sbc & _ & Vbc).
    destruct (div_ex q c Sq Sc) as (l & Rl & Sl & Nl & Vl), (div_ex a bc Sa Sbc) as (r & Rr & Sr & Nr & Vr).
    exists q, l, bc, r, (encode F (value F l)). repeat (split; [assumption|]). split; apply enc; auto; [reflexivity|].
    rewrite Vr, Vl, Vq. rewrite (cong_pow p _ _ (p - 2) Vbc), Z.pow_mul_l. apply cong_eq. ring.
  Qed.
  Lemma fl_legendre_mul a b : pow_safe F a -> pow_safe F b -> exists ab l la lb r bs,
    computes F "mul" a b ab /\ runs F "F::legendre" [VArr ab] [VArr l] [VArr ab] /\
    runs F "F::legendre" [VArr a] [VArr la] [VArr a] /\ runs F "F::legendre" [VArr b] [VArr lb] [VArr b] /\ computes F "mul" la lb r /\ encodes F l bs /\ encodes F r bs.
  Proof.
    intros Sa Sb. destruct (mul_ex a b Sa Sb) as (ab & Rab & Sab & _ & Vab), (leg_ex a Sa) as (la & Ra & Sla & _ & Va), (leg_ex b Sb) as (lb & Rb & Slb & _ & Vb).
    destruct (leg_ex ab Sab) as (l & Rl & Sl & Nl & Vl), (mul_ex la lb Sla Slb) as (r & Rr & Sr & Nr & Vr).
    exists ab, l, la, lb, r, (encode F (value F r)). repeat (split; [assumption|]). split; apply enc; auto; [|reflexivity].
    rewrite Vl, Vr, Va, Vb, <- Z.pow_mul_l. now apply cong_pow.
  Qed.
  Lemma fl_legendre_square a : pow_safe F a -> ~ eqmod F (value F a) 0 -> exists s l one bs,
    computes_unary F "F::square" "F::squared" a s /\ runs F "F::legendre" [VArr s] [VArr l] [VArr s] /\ runs F "F::one" [] [VArr one] [] /\ encodes F l bs /\ encodes F one bs.
  Proof.
    intros S N. destruct (sq_ex a S) as (s & Rs & Ss & _ & Vs), (leg_ex s Ss) as (l & Rl & _ & Nl & Vl).
    destruct (constants_claim F HF) as (z & one & _ & _ & Rz & Ro & _ & _ & Cz & Vz & Co & Vo & _).
    exists s, l, one, (encode F 1). repeat (split; [assumption|]). split; apply enc; auto using canonical_normal; [|rewrite Vo; reflexivity].
    rewrite Vl, (cong_pow p _ _ ((p - 1) / 2) Vs). apply euler_square; [exact P|now apply odd_modulus| |exists (value F a); reflexivity].
    intros D. apply N, eqc, div0. destruct (prime_mult p P _ _ D); assumption.
  Qed.
  Lemma fl_legendre_invert a : pow_safe F a -> exists i l r bs,
    computes_unary F "F::invert" "F::inverted" a i /\ runs F "F::legendre" [VArr i] [VArr l] [VArr i] /\ runs F "F::legendre" [VArr a] [VArr r] [VArr a] /\
    encodes F l bs /\ encodes F r bs.
  Proof.
    intros S. destruct (inv_ex a S) as (i & Ri & Si & _ & Vi), (leg_ex a S) as (r & Rr & _ & Nr & Vr), (leg_ex i Si) as (l & Rl & _ & Nl & Vl).
    exists i, l, r, (encode F (value F r)). repeat (split; [assumption|]). split; apply enc; auto; [|reflexivity]. rewrite Vl, Vr.
    pose proof half_pos as HP. set (h := (p - 1) / 2) in *. set (x := value F a) in *. pose proof P3. destruct (Zdivide_dec p x) as [D|D].
    - rewrite (cong_pow p _ _ h Vi), (zero_pow p x h P HP D). apply zero_pow; [exact P|exact HP|]. apply cong0. apply zero_pow; [exact P|lia|exact D].
    - pose proof (fermat_inverse p x P D) as I. rewrite (cong_pow p _ _ h Vi). pose proof (cong_pow p _ _ h I) as J. rewrite Z.pow_mul_l, Z.pow_1_l in J by lia.
      destruct (euler_pm p x P (odd_modulus F HF) D) as [E|E]; fold h in E; rewrite E in J |- *.
      + etransitivity; [|exact J]. apply cong_eq. ring.
      + set (y := (x ^ (p - 2)) ^ h) in *. transitivity (y * -1 * -1); [apply cong_eq; ring|]. rewrite J. reflexivity.
  Qed.
  Lemma fl_sqrt_square a : pow_safe F a -> exists s r, computes_unary F "F::square" "F::squared" a s /\ runs F "F::sqrt" [VArr s] [VArr r] [VArr s] /\ produced F r /\
    (eqmod F (value F r) (value F a) \/ eqmod F (value F r) (- value F a)).
  Proof.
    intros S. destruct (sq_ex a S) as (s & Rs & Ss & _ & Vs).
    destruct (sqrt_claim F s HF Ss) as (r & Rr & Pr & E); [exists (value F a); apply eqc; symmetry; exact Vs|].
    exists s, r. repeat (split; [assumption|]). rewrite !eqc in *. rewrite Vs in E.
    assert (D : (p | (value F r - value F a) * (value F r + value F a))).
    { apply cong0. replace ((value F r - value F a) * (value F r + value F a)) with (value F r * value F r - value F a * value F a) by ring. rewrite E. apply cong_eq. ring. }
    destruct (prime_mult p P _ _ D) as [D'|D']; [left|right].
    - exact D'.
    - unfold cong. replace (value F r - - value F a) with (value F r + value F a) by ring. exact D'.
  Qed.
  Lemma add_ex a b : pow_safe F a -> pow_safe F b -> exists o, computes F "add" a b o /\ pow_safe F o /\ normal F o /\ cong p (value F o) (value F a + value F b).
  Proof.
    intros [(E & La)|(N1 & N2 & Wa)] [(E' & Lb)|(N1' & N2' & Wb)]; try contradiction.
    - destruct (op_tracks F HF Add Loose Loose Loose a b eq_refl La Lb) as (o & R & S & V). exists o. split; [exact R|]. split; [left; split; [exact E|exact S]|].
      split; [|now apply eqc]. exact (sh_normal F HF Loose o eq_refl S).
    - assert (W : forall l, wide F l -> any_rep F l).
      { intros l. now apply wide_any. }
      destruct (add_claim F a b HF (W a Wa) (W b Wb)) as (o & R & V & S). exists o. split; [exact R|]. pose proof (B_pos F HF) as BP. unfold B in BP.
      split; [right; split; [exact N1|split; [exact N2|pose proof (W_big F HF); apply (wide_intro F _ _ _ S); lia]]|]. split; [now apply sum_normal|]. now apply eqc.
  Qed.
  Lemma fl_div_sum a b c : pow_safe F a -> pow_safe F b -> pow_safe F c -> exists s l q r t bs,
    computes F "add" a b s /\ computes F "div" s c l /\ computes F "div" a c q /\ computes F "div" b c r /\ computes F "add" q r t /\ encodes F l bs /\ encodes F t bs.
  Proof.
    intros Sa Sb Sc. destruct (add_ex a b Sa Sb) as (s & Rs & Ss & _ & Vs), (div_ex a c Sa Sc) as (q & Rq & Sq & _ & Vq), (div_ex b c Sb Sc) as (r & Rr & Sr & _ & Vr).
    destruct (div_ex s c Ss Sc) as (l & Rl & Sl & Nl & Vl), (add_ex q r Sq Sr) as (t & Rt & St & Nt & Vt).
    exists s, l, q, r, t, (encode F (value F l)). repeat (split; [assumption|]). split; apply enc; auto; [reflexivity|].
    rewrite Vt, Vl, Vs, Vq, Vr. apply cong_eq. ring.
  Qed.
  Lemma fl_fractions a b c d : pow_safe F a -> pow_safe F b -> pow_safe F c -> pow_safe F d -> ~ eqmod F (value F b) 0 -> ~ eqmod F (value F d) 0 ->
    exists q r l ad cb n bd t bs,
    computes F "div" a b q /\ computes F "div" c d r /\ computes F "add" q r l /\
    computes F "mul" a d ad /\ computes F "mul" c b cb /\ computes F "add" ad cb n /\ computes F "mul" b d bd /\ computes F "div" n bd t /\ encodes F l bs /\ encodes F t bs.
  Proof.
    intros Sa Sb Sc Sd NB ND. destruct (div_ex a b Sa Sb) as (q & Rq & Sq & _ & Vq), (div_ex c d Sc Sd) as (r & Rr & Sr & _ & Vr), (add_ex q r Sq Sr) as (l & Rl & Sl & Nl & Vl).
    destruct (mul_ex a d Sa Sd) as (ad & Rad & Sad & _ & Vad), (mul_ex c b Sc Sb) as (cb & Rcb & Scb & _ & Vcb), (add_ex ad cb Sad Scb) as (n & Rn & Sn & _ & Vn).
    destruct (mul_ex b d Sb Sd) as (bd & Rbd & Sbd & _ & Vbd), (div_ex n bd Sn Sbd) as (t & Rt & St & Nt & Vt).
    exists q, r, l, ad, cb, n, bd, t, (encode F (value F l)). repeat (split; [assumption|]). split; apply enc; auto; [reflexivity|].
    assert (IB := fermat_inverse p (value F b) P ltac:(intros D; apply NB, eqc, div0, D)). assert (ID := fermat_inverse p (value F d) P ltac:(intros D; apply ND, eqc, div0, D)).
    rewrite Vt, (cong_pow p _ _ (p - 2) Vbd), Z.pow_mul_l, Vn, Vad, Vcb, Vl, Vq, Vr.
    set (i := value F b ^ (p - 2)) in *. set (j := value F d ^ (p - 2)) in *.
    transitivity (value F a * i * (j * value F d) + value F c * j * (i * value F b)); [apply cong_eq; ring|]. rewrite IB, ID. apply cong_eq. ring.
  Qed.
End FieldLaws.
