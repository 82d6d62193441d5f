(** Witnesses against the properties that the code does not have.  Each witness
    is made by library calls from constants or bytes; the kernel runs the
    translated code on it. *)
From Coq Require Import ZArith List String Lia Bool Znumtheory.
From Verif Require Import Lang Quick Poly Kernel Fields Kfacts Ops Words Codec Normalize Methods Surface Forms Format Power Arith Encoding Observe.
Import ListNotations.
Local Open Scope string_scope.
Local Open Scope Z_scope.

(** run one method and keep the array it assigns or returns *)
Definition arr (r : res val) : list Z := match r with Ok (VArr l) => l | _ => [] end.
Definition op1 (F : fld) (op : string) (a b : list Z) : list Z :=
  match quick_call Debug (fl_tbl F) ("F::" ++ op ++ "_assign(&F)") [VArr a; VArr b] with Ok (_, VArr v :: _) => v | _ => [] end.
Definition ret (F : fld) (f : string) (args : list val) : list Z :=
  match quick_call Debug (fl_tbl F) f args with Ok (VArr v :: _, _) => v | _ => [] end.
Definition asg (F : fld) (f : string) (args : list val) : list Z :=
  match quick_call Debug (fl_tbl F) f args with Ok (_, VArr v :: _) => v | _ => [] end.

Definition res_eqb (r : res (list val * list val)) (rets outs : list val) : bool :=
  let veqb a b := match a, b with VInt x, VInt y => x =? y | VArr x, VArr y => words_eqb x y | _, _ => false end in
  let fix leqb l l' := match l, l' with [], [] => true | a :: t, b :: t' => veqb a b && leqb t t' | _, _ => false end in
  match r with Ok (rs, os) => leqb rs rets && leqb os outs | _ => false end.
Lemma words_eqb_ok a b : words_eqb a b = true -> a = b. Proof. apply words_eqb_eq. Qed.
Lemma res_eqb_ok r rets outs : res_eqb r rets outs = true -> r = Ok (rets, outs).
Proof.
  unfold res_eqb. destruct r as [[rs os]| |]; try discriminate. intros E. apply andb_true_iff in E as [E1 E2].
  assert (L : forall l l', (fix leqb (l l' : list val) : bool := match l, l' with [], [] => true | a :: t, b :: t' =>
      (match a, b with VInt x, VInt y => x =? y | VArr x, VArr y => words_eqb x y | _, _ => false end) && leqb t t' | _, _ => false end) l l' = true -> l = l').
  { induction l as [|a l IH]; intros [|b l'] X; try discriminate; auto. apply andb_true_iff in X as [Xa Xl].
    f_equal; [|auto]. destruct a, b; try discriminate; f_equal; [apply Z.eqb_eq; auto|apply words_eqb_ok; auto]. }
  apply L in E1. apply L in E2. subst. reflexivity.
Qed.
Definition runsb (F : fld) (f : string) (args rets outs : list val) : bool :=
  res_eqb (quick_call Debug (fl_tbl F) f args) rets outs && res_eqb (quick_call Release (fl_tbl F) f args) rets outs.
Lemma runsb_ok F f args rets outs : runsb F f args rets outs = true -> runs F f args rets outs.
Proof. unfold runsb. rewrite !quick_call_ok, andb_true_iff. intros [E1 E2] [|]; apply res_eqb_ok; assumption. Qed.
Definition computesb (F : fld) (op : string) (a b o : list Z) : bool :=
  runsb F ("F::" ++ op ++ "_assign(&F)") [VArr a; VArr b] [] [VArr o; VArr b] &&
  runsb F ("(&F)::" ++ op ++ "(&F)") [VArr a; VArr b] [VArr o] [VArr a; VArr b].
Lemma computesb_ok F op a b o : computesb F op a b o = true -> computes F op a b o.
Proof. unfold computesb. rewrite andb_true_iff. intros [E1 E2]. split; apply runsb_ok; assumption. Qed.
Definition computes_smallb (F : fld) (op : string) (a : list Z) (k : Z) (o : list Z) : bool :=
  runsb F ("F::small_" ++ op ++ "_assign") [VArr a; VInt k] [] [VArr o; VInt k] &&
  runsb F ("F::small_" ++ op) [VArr a; VInt k] [VArr o] [VArr a; VInt k].
Lemma computes_smallb_ok F op a b o : computes_smallb F op a b o = true -> computes_small F op a b o.
Proof. unfold computes_smallb. rewrite andb_true_iff. intros [E1 E2]. split; apply runsb_ok; assumption. Qed.
Definition eqmodb (F : fld) (a b : Z) : bool := a mod modulus F =? b mod modulus F.
Lemma eqmodb_no F a b : eqmodb F a b = false -> ~ eqmod F a b.
Proof. unfold eqmodb, eqmod. apply Z.eqb_neq. Qed.
Lemma eqmodb_yes F a b : eqmodb F a b = true -> eqmod F a b. Proof. apply Z.eqb_eq. Qed.
Definition canonicalb (F : fld) (l : list Z) : bool := repb F 0 (2 ^ fl_tb F - 1) l && (value F l <? modulus F).
Lemma canonicalb_ok F l : canonicalb F l = true -> canonical F l.
Proof. unfold canonicalb. rewrite andb_true_iff. intros [A C]. split; [apply repb_ok; auto|apply Z.ltb_lt; auto]. Qed.

Definition tightb (F : fld) (l : list Z) : bool := repb F 0 (2 ^ fl_tb F - 1) l.
Lemma tightb_ok F l : tightb F l = true -> tight F l. Proof. apply repb_ok. Qed.

Definition w0 F := ret F "F::zero" [].
Definition w1 F := ret F "F::one" [].
Definition wm F := ret F "F::m_one" [].
Definition getsb (F : fld) (f : string) (o : list Z) : bool := runsb F f [] [VArr o] [].

Local Opaque runsb computesb computes_smallb eqmodb op1 ret asg repb value rust_call.
(** split a checked conjunction into its parts *)
Ltac parts K := repeat match type of K with (_ && _)%bool = true => apply andb_true_iff in K; let K' := fresh "K" in destruct K as [K K'] end.

(** ** Multiplication of signed values in e222_117 and e251_9: (0 - 1) * 1 *)
Definition mul_witness (F : fld) : bool :=
  let d := op1 F "sub" (w0 F) (w1 F) in let o := op1 F "mul" d (w1 F) in
  getsb F "F::zero" (w0 F) && getsb F "F::one" (w1 F) && computesb F "sub" (w0 F) (w1 F) d && computesb F "mul" d (w1 F) o &&
  (value F d =? -1) && (value F (w1 F) =? 1) && negb (eqmodb F (value F o) (-1)).
Lemma mul_refuted F : F = e222_117 \/ F = e251_9 ->
  exists zero one d o, runs F "F::zero" [] [VArr zero] [] /\ runs F "F::one" [] [VArr one] [] /\
    computes F "sub" zero one d /\ computes F "mul" d one o /\
    value F d = -1 /\ value F one = 1 /\ ~ eqmod F (value F o) (value F d * value F one).
Proof.
  intros E. assert (K : mul_witness F = true) by (destruct E as [-> | ->]; vm_compute; reflexivity).
  unfold mul_witness in K. cbv zeta in K. unfold getsb in K. parts K.
  apply Z.eqb_eq in K1, K2. eexists _, _, _, _. split; [apply runsb_ok; eassumption|]. split; [apply runsb_ok; eassumption|].
  split; [apply computesb_ok; eassumption|]. split; [apply computesb_ok; eassumption|]. split; [assumption|]. split; [assumption|].
  rewrite K1, K2. apply eqmodb_no. apply negb_true_iff. exact K0.
Qed.
(** non-negative operands in e251_9: u unpacked, s = u + u, t = s + s, then t * t *)
Definition all_ones (F : fld) : list Z := repeat 255 (fl_nb F).
Definition mul_witness251 (F : fld) : bool :=
  let u := ret F "F::unpacked" [VArr (all_ones F)] in
  let s := op1 F "add" u u in let t := op1 F "add" s s in let o := op1 F "mul" t t in
  runsb F "F::unpacked" [VArr (all_ones F)] [VArr u] [VArr (all_ones F)] &&
  computesb F "add" u u s && computesb F "add" s s t && computesb F "mul" t t o &&
  repb F 0 (2 * 2 ^ fl_tb F + (fl_C F - 1)) t && negb (eqmodb F (value F o) (value F t * value F t)).
Lemma mul_refuted_251 F : F = e251_9 ->
  exists u s t o, runs F "F::unpacked" [VArr (all_ones F)] [VArr u] [VArr (all_ones F)] /\
    computes F "add" u u s /\ computes F "add" s s t /\ computes F "mul" t t o /\
    loose F t /\ ~ eqmod F (value F o) (value F t * value F t).
Proof.
  intros E. assert (K : mul_witness251 F = true) by (rewrite E; vm_compute; reflexivity). clear E.
  unfold mul_witness251 in K. cbv zeta in K. unfold getsb in K. parts K.
  eexists _, _, _, _. split; [apply runsb_ok; eassumption|]. split; [apply computesb_ok; eassumption|].
  split; [apply computesb_ok; eassumption|]. split; [apply computesb_ok; eassumption|].
  split; [apply repb_ok; eassumption|]. apply eqmodb_no. apply negb_true_iff. exact K0.
Qed.

(** ** Subtraction of a value with a pending carry: 0 - (m_one + m_one) *)
Definition sub_witness (F : fld) : bool :=
  let b := op1 F "add" (wm F) (wm F) in let o := op1 F "sub" (w0 F) b in
  getsb F "F::zero" (w0 F) && getsb F "F::m_one" (wm F) && computesb F "add" (wm F) (wm F) b && computesb F "sub" (w0 F) b o &&
  negb (eqmodb F (value F o) (value F (w0 F) - value F b)).
Lemma sub_refuted F : In F all_fields ->
  exists zero m b o, runs F "F::zero" [] [VArr zero] [] /\ runs F "F::m_one" [] [VArr m] [] /\
    computes F "add" m m b /\ computes F "sub" zero b o /\ ~ eqmod F (value F o) (value F zero - value F b).
Proof.
  intros H. assert (K : sub_witness F = true) by (revert F H; apply all_chk; vm_compute; reflexivity).
  unfold sub_witness in K. cbv zeta in K. unfold getsb in K. parts K.
  eexists _, _, _, _. split; [apply runsb_ok; eassumption|]. split; [apply runsb_ok; eassumption|].
  split; [apply computesb_ok; eassumption|]. split; [apply computesb_ok; eassumption|].
  apply eqmodb_no. apply negb_true_iff. exact K0.
Qed.

(** ** Negation is the identity on residues *)
Lemma modulus_odd F : In F all_fields -> rel_prime (modulus F) 2.
Proof.
  intros H. apply rel_prime_sym. apply Zgcd_1_rel_prime. apply Z.eqb_eq. revert F H. apply all_chk. vm_compute. reflexivity.
Qed.
Lemma neg_refuted F a : In F all_fields -> any_rep F a -> ~ eqmod F (value F a) 0 ->
  exists o, runs F "F::neg" [VArr a] [VArr o] [VArr a] /\ eqmod F (value F o) (value F a) /\
    ~ eqmod F (value F o + value F a) 0.
Proof.
  intros H A Nz. destruct (neg_claim F a H A) as (o & R & E & _). exists o. split; [exact R|]. split; [exact E|].
  intros Q. apply Nz. pose proof (modulus_pos F H) as MP.
  assert (Q' : eqmod F (2 * value F a) 0).
  { unfold eqmod. rewrite <- Q. replace (2 * value F a) with (value F a + value F a) by ring.
    apply (eqmod_sum F); [symmetry; exact E|reflexivity]. }
  unfold eqmod in *. rewrite Zmod_0_l in *. apply Z.mod_divide in Q'; [|lia].
  apply Gauss in Q'; [|apply modulus_odd; auto]. apply Z.mod_divide; [lia|exact Q'].
Qed.

(** ** Small multiplication *)
(* a pending carry: (m_one + m_one).small_mul(1) *)
Definition smul_witness (F : fld) : bool :=
  let b := op1 F "add" (wm F) (wm F) in let o := asg F "F::small_mul_assign" [VArr b; VInt 1] in
  getsb F "F::m_one" (wm F) && computesb F "add" (wm F) (wm F) b && computes_smallb F "mul" b 1 o &&
  negb (eqmodb F (value F o) (value F b * 1)).
Lemma small_mul_refuted F : In F all_fields ->
  exists m b o, runs F "F::m_one" [] [VArr m] [] /\ computes F "add" m m b /\ computes_small F "mul" b 1 o /\
    ~ eqmod F (value F o) (value F b * 1).
Proof.
  intros H. assert (K : smul_witness F = true) by (revert F H; apply all_chk; vm_compute; reflexivity).
  unfold smul_witness in K. cbv zeta in K. unfold getsb in K. parts K.
  eexists _, _, _. split; [apply runsb_ok; eassumption|]. split; [apply computesb_ok; eassumption|].
  split; [apply computes_smallb_ok; eassumption|]. apply eqmodb_no. apply negb_true_iff. exact K0.
Qed.
(* e521_1 on a canonical operand: a canonical value times 3 *)
Definition smul_witness521 (F : fld) : bool :=
  let bs := le_bytes (fl_nb F) (12009599095799807 * 2 ^ 270) in let u := ret F "F::unpacked" [VArr bs] in
  let o := asg F "F::small_mul_assign" [VArr u; VInt 3] in
  runsb F "F::unpacked" [VArr bs] [VArr u] [VArr bs] && canonicalb F u && (value F u =? 12009599095799807 * 2 ^ 270) &&
  computes_smallb F "mul" u 3 o && negb (eqmodb F (value F o) (value F u * 3)).
Lemma small_mul_refuted_521 F : F = e521_1 ->
  exists bs u o, runs F "F::unpacked" [VArr bs] [VArr u] [VArr bs] /\ canonical F u /\ value F u = 12009599095799807 * 2 ^ 270 /\ computes_small F "mul" u 3 o /\ ~ eqmod F (value F o) (value F u * 3).
Proof.
  intros E. assert (K : smul_witness521 F = true) by (rewrite E; vm_compute; reflexivity). clear E.
  unfold smul_witness521 in K. cbv zeta in K. parts K. apply Z.eqb_eq in K2.
  eexists _, _, _. split; [apply runsb_ok; eassumption|]. split; [apply canonicalb_ok; assumption|]. split; [assumption|].
  split; [apply computes_smallb_ok; eassumption|]. apply eqmodb_no. apply negb_true_iff. exact K0.
Qed.
(* a large multiplier on a canonical operand: m_one.small_mul(i32::MAX); the top
   product loses bits in a left shift, which Rust does not check *)
Definition overflow_fields : list fld := [e221_3; e222_117; e382_105; e383_187; e521_1].
Definition smul_overflow (F : fld) : bool :=
  let o := asg F "F::small_mul_assign" [VArr (wm F); VInt (2 ^ 31 - 1)] in
  getsb F "F::m_one" (wm F) && computes_smallb F "mul" (wm F) (2 ^ 31 - 1) o &&
  negb (eqmodb F (value F o) (value F (wm F) * (2 ^ 31 - 1))).
Lemma small_mul_overflows F : In F overflow_fields ->
  exists m o, runs F "F::m_one" [] [VArr m] [] /\ computes_small F "mul" m (2 ^ 31 - 1) o /\
      ~ eqmod F (value F o) (value F m * (2 ^ 31 - 1)).
Proof.
  intros H. assert (K : smul_overflow F = true).
  { revert F H. apply forallb_forall. vm_compute. reflexivity. }
  unfold smul_overflow in K. cbv zeta in K. unfold getsb in K. parts K.
  eexists _, _. split; [apply runsb_ok; eassumption|]. split; [apply computes_smallb_ok; eassumption|].
  apply eqmodb_no. apply negb_true_iff. exact K0.
Qed.

(** ** Normalisation of a difference *)
(* u read from bytes, not reduced; d = 0 - u; normalize(d) is not canonical *)
Definition norm_witness (F : fld) : bool :=
  let bs := le_bytes (fl_nb F) (2 ^ nbits F - 1) in let u := ret F "F::unpacked" [VArr bs] in
  let d := op1 F "sub" (w0 F) u in let o := asg F "F::normalize" [VArr d] in
  runsb F "F::unpacked" [VArr bs] [VArr u] [VArr bs] && getsb F "F::zero" (w0 F) && computesb F "sub" (w0 F) u d &&
  runsb F "F::normalize" [VArr d] [] [VArr o] && tightb F u && eqmodb F (value F d) (- value F u) && (value F o <? 0).
Lemma normalize_refuted F : In F all_fields -> F <> e521_1 ->
  exists bs u zero d o, runs F "F::unpacked" [VArr bs] [VArr u] [VArr bs] /\ runs F "F::zero" [] [VArr zero] [] /\
    computes F "sub" zero u d /\ runs F "F::normalize" [VArr d] [] [VArr o] /\
    tight F u /\ eqmod F (value F d) (- value F u) /\ value F o < 0 /\ ~ canonical F o.
Proof.
  intros H N. assert (K : norm_witness F = true).
  { clear -H N. repeat (destruct H as [<-|H]; [vm_compute; reflexivity || (exfalso; apply N; reflexivity)|]). destruct H. }
  unfold norm_witness in K. cbv zeta in K. unfold getsb in K. parts K. apply Z.ltb_lt in K0.
  eexists _, _, _, _, _. split; [apply runsb_ok; eassumption|]. split; [apply runsb_ok; eassumption|].
  split; [apply computesb_ok; eassumption|]. split; [apply runsb_ok; eassumption|].
  split; [apply tightb_ok; assumption|]. split; [apply eqmodb_yes; assumption|]. split; [assumption|].
  intros [T _]. apply tight_value in T; [lia|assumption].
Qed.
(* e521_1: 0 - (0 - 1) *)
Definition norm_witness521 (F : fld) : bool :=
  let b := op1 F "sub" (w0 F) (w1 F) in
  let d := op1 F "sub" (w0 F) b in let o := asg F "F::normalize" [VArr d] in
  getsb F "F::zero" (w0 F) && getsb F "F::one" (w1 F) && computesb F "sub" (w0 F) (w1 F) b && computesb F "sub" (w0 F) b d &&
  runsb F "F::normalize" [VArr d] [] [VArr o] && (value F o <? 0).
Lemma normalize_refuted_521 F : F = e521_1 ->
  exists zero one b d o, runs F "F::zero" [] [VArr zero] [] /\ runs F "F::one" [] [VArr one] [] /\
    computes F "sub" zero one b /\ computes F "sub" zero b d /\ runs F "F::normalize" [VArr d] [] [VArr o] /\
    value F o < 0 /\ ~ canonical F o.
Proof.
  intros E. assert (H : In F all_fields) by (rewrite E; cbn; tauto).
  assert (K : norm_witness521 F = true) by (rewrite E; vm_compute; reflexivity). clear E.
  unfold norm_witness521 in K. cbv zeta in K. unfold getsb in K. parts K. apply Z.ltb_lt in K0.
  eexists _, _, _, _, _. split; [apply runsb_ok; eassumption|]. split; [apply runsb_ok; eassumption|].
  split; [apply computesb_ok; eassumption|]. split; [apply computesb_ok; eassumption|]. split; [apply runsb_ok; eassumption|].
  split; [assumption|]. intros [T _]. apply tight_value in T; [lia|assumption].
Qed.

(** ** normalize_bitand with a mask *)
Definition nband_witness (F : fld) : bool :=
  let m := ret F "F::filled" [VInt 1] in
  let o := asg F "F::normalize_bitand" [VArr (wm F); VArr m] in
  getsb F "F::m_one" (wm F) && runsb F "F::filled" [VInt 1] [VArr m] [VInt 1] &&
  match quick_call Debug (fl_tbl F) "F::normalize_bitand" [VArr (wm F); VArr m] with
  | Ok ([], [VArr o'; VArr m']) => runsb F "F::normalize_bitand" [VArr (wm F); VArr m] [] [VArr o; VArr m']
  | _ => false end && negb (eqmodb F (value F o) (value F (wm F))).
Lemma nband_refuted F : In F all_fields ->
  exists m x o m', runs F "F::filled" [VInt 1] [VArr m] [VInt 1] /\ runs F "F::m_one" [] [VArr x] [] /\
    runs F "F::normalize_bitand" [VArr x; VArr m] [] [VArr o; VArr m'] /\ ~ eqmod F (value F o) (value F x).
Proof.
  intros H. assert (K : nband_witness F = true) by (revert F H; apply all_chk; vm_compute; reflexivity).
  unfold nband_witness in K. cbv zeta in K. unfold getsb in K. rewrite ?quick_call_ok in K. parts K.
  destruct (rust_call Debug _ "F::normalize_bitand" _) as [[[|? ?] [|[?|o'] [|[?|m'] [|? ?]]]]| |] in K1; try discriminate.
  eexists _, _, _, m'. split; [apply runsb_ok; eassumption|]. split; [apply runsb_ok; eassumption|].
  split; [apply runsb_ok; eassumption|]. apply eqmodb_no. apply negb_true_iff. exact K0.
Qed.

(** ** rand never returns -1 *)
Lemma rand_refuted F ds m os : In F all_fields -> (fl_n F <= List.length ds)%nat ->
  runs F "F::m_one" [] [VArr m] [] -> ~ runs F "F::rand" [VArr ds] [VArr m] os.
Proof.
  intros H L Rm R. destruct (constants_claim F H) as (_ & _ & m' & p & _ & _ & Rm' & Rp & _ & _ & _ & _ & Cm & _).
  assert (m' = m) as -> by (pose proof (Rm Debug); pose proof (Rm' Debug); congruence).
  assert (Lm : List.length m = fl_n F) by apply Cm.
  pose proof (proj1 (rand_range F m H Lm) (ex_intro _ ds (ex_intro _ os (conj L R))) p 1%nat Rp) as Q.
  assert (E : (1 <? fl_n F)%nat && (nth 1 (wm F) 0 =? nth 1 (ret F "F::modulus" []) 0) && getsb F "F::m_one" (wm F) &&
    getsb F "F::modulus" (ret F "F::modulus" []) = true).
  { clear -H. revert F H. apply all_chk. vm_compute. reflexivity. }
  parts E. apply Nat.ltb_lt in E. apply Z.eqb_eq in K1. apply runsb_ok in K0, K.
  assert (m = wm F) as -> by (pose proof (Rm Debug); pose proof (K0 Debug); congruence).
  assert (p = ret F "F::modulus" []) as -> by (pose proof (Rp Debug); pose proof (K Debug); congruence).
  specialize (Q E). lia.
Qed.

(** ** Overflow (C25) *)
(* a canonical value times i32::MAX overflows in a debug build *)
Definition smul_panics (F : fld) : bool :=
  let bs := le_bytes (fl_nb F) ((2 ^ 32 + 2 ^ (fl_w F / 2) - 1) * 2 ^ (fl_w F * (Z.of_nat (fl_n F) - 1))) in
  let u := ret F "F::unpacked" [VArr bs] in
  runsb F "F::unpacked" [VArr bs] [VArr u] [VArr bs] && canonicalb F u &&
  match quick_call Debug (fl_tbl F) "F::small_mul" [VArr u; VInt (2 ^ 31 - 1)] with Panic => true | _ => false end &&
  match quick_call Release (fl_tbl F) "F::small_mul" [VArr u; VInt (2 ^ 31 - 1)] with Ok _ => true | _ => false end.
Lemma small_mul_panics F : In F overflow_fields ->
  exists bs u r, runs F "F::unpacked" [VArr bs] [VArr u] [VArr bs] /\ canonical F u /\
    rust_call Debug (fl_tbl F) "F::small_mul" [VArr u; VInt (2 ^ 31 - 1)] = Panic /\
    rust_call Release (fl_tbl F) "F::small_mul" [VArr u; VInt (2 ^ 31 - 1)] = Ok r.
Proof.
  intros H. assert (K : smul_panics F = true).
  { revert F H. apply forallb_forall. vm_compute. reflexivity. }
  unfold smul_panics in K. cbv zeta in K. rewrite ?quick_call_ok in K. parts K.
  destruct (rust_call Debug (fl_tbl F) "F::small_mul" _) eqn:E1; try discriminate.
  destruct (rust_call Release (fl_tbl F) "F::small_mul" _) as [r| |] eqn:E2; try discriminate.
  eexists _, _, r. split; [apply runsb_ok; eassumption|]. split; [apply canonicalb_ok; eassumption|]. split; [exact E1|exact E2].
Qed.
(* m_one times a multiplier that small_mul handles, then squared *)
Definition smul_square (F : fld) : bool :=
  let k := Z.min (2 ^ 31 - 1) (2 ^ (61 - fl_tb F)) in let o := asg F "F::small_mul_assign" [VArr (wm F); VInt k] in
  getsb F "F::m_one" (wm F) && computes_smallb F "mul" (wm F) k o &&
  match quick_call Debug (fl_tbl F) "F::square" [VArr o] with Panic => true | _ => false end &&
  match quick_call Release (fl_tbl F) "F::square" [VArr o] with Ok _ => true | _ => false end.
Lemma all_chk_le : forallb (fun F => 0 <=? 61 - fl_tb F) all_fields = true -> forall F, In F all_fields -> 0 <= 61 - fl_tb F.
Proof. intros K F H. apply Z.leb_le. exact (all_chk _ K F H). Qed.
Lemma square_panics F : In F all_fields ->
  exists m k o r, runs F "F::m_one" [] [VArr m] [] /\ is_i32 k /\ computes_small F "mul" m k o /\
    rust_call Debug (fl_tbl F) "F::square" [VArr o] = Panic /\ rust_call Release (fl_tbl F) "F::square" [VArr o] = Ok r.
Proof.
  intros H. assert (K : smul_square F = true) by (revert F H; apply all_chk; vm_compute; reflexivity).
  unfold smul_square in K. cbv zeta in K. unfold getsb in K. rewrite ?quick_call_ok in K. parts K.
  destruct (rust_call Debug (fl_tbl F) "F::square" _) eqn:E1; try discriminate.
  destruct (rust_call Release (fl_tbl F) "F::square" _) as [r| |] eqn:E2; try discriminate.
  eexists _, _, _, r. split; [apply runsb_ok; eassumption|]. split; [|split; [apply computes_smallb_ok; eassumption|split; [exact E1|exact E2]]].
  assert (0 < 2 ^ (61 - fl_tb F)) by (apply Z.pow_pos_nonneg; [lia|]; clear K K0 K1 K2 E1 E2; revert F H; apply all_chk_le; vm_compute; reflexivity). unfold is_i32. lia.
Qed.
