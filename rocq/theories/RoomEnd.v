(** Witnesses that the head room of C65 is all there is. *)
From Coq Require Import ZArith List String Lia Bool.
From Verif Require Import Lang Quick Arith Kernel Fields Ops Codec Observe Refute Room.
Import ListNotations.
Local Open Scope string_scope.
Local Open Scope Z_scope.

(** ** Where it ends *)
Definition quiet (F : fld) : bool := is_383 F || is_521 F.
Definition last (F : fld) : list Z * Z := if is_521 F then ([0; 0; 0; 0; 0; 0; 0; 0; 0; 2 ^ 34], 2 ^ 15) else (wm F, 2 ^ (room F + 1) - 1).
Definition rel (F : fld) (f : string) (args : list val) : list Z :=
  match quick_call Release (fl_tbl F) f args with Ok (_, VArr v :: _) => v | _ => [] end.
Definition ends (F : fld) (f : string) (args : list val) (rest : list val) (v : Z) : bool :=
  let o := rel F f args in
  res_eqb (quick_call Release (fl_tbl F) f args) [] (VArr o :: rest) && negb (eqmodb F (value F o) v) &&
  match quick_call Debug (fl_tbl F) f args with Panic => true | q => quiet F && res_eqb q [] (VArr o :: rest) end.
Definition room_ends (F : fld) : bool :=
  let c := fst (last F) in let k := snd (last F) in let x := asg F "F::small_mul_assign" [VArr c; VInt k] in
  canonicalb F c && ((- 2 ^ 31 <=? k) && (k <? 2 ^ 31)) && computes_smallb F "mul" c k x && (value F x =? value F c * k) &&
  repb F (- 2 ^ (fl_tb F + (room F + 1))) (2 ^ (fl_tb F + (room F + 1))) x &&
  ends F "F::mul_assign(&F)" [VArr x; VArr x] [VArr x] (value F x * value F x) && ends F "F::square" [VArr x] [] (value F x * value F x).
Lemma ends_ok F f args rest v : ends F f args rest v = true ->
  exists o, or_panics F f args [] (VArr o :: rest) /\ ~ eqmod F (value F o) v /\ (quiet F = false -> rust_call Debug (fl_tbl F) f args = Panic).
Proof.
  unfold ends. rewrite !quick_call_ok. set (o := rel F f args). intros K. exists o. clearbody o. apply andb_true_iff in K as [K K3]. apply andb_true_iff in K as [K1 K2].
  apply res_eqb_ok in K1. apply negb_true_iff, eqmodb_no in K2. unfold or_panics.
  destruct (rust_call Debug (fl_tbl F) f args) as [q| |] eqn:E.
  - apply andb_true_iff in K3 as [Q K3]. apply res_eqb_ok in K3. split; [split; [exact K1|left; exact K3]|]. split; [exact K2|]. intros X. rewrite X in Q. discriminate.
  - split; [split; [exact K1|now right]|]. split; [exact K2|]. intros _. reflexivity.
  - apply andb_true_iff in K3 as [_ K3]. apply res_eqb_ok in K3. discriminate.
Qed.
Lemma quiet_no F : In F all_fields -> F <> e383_187 -> F <> e521_1 -> quiet F = false.
Proof.
  intros H N1 N2. cbn [all_fields In] in H. destruct H as [H|[H|[H|[H|[H|[H|[H|[H|[H|[]]]]]]]]]]; rewrite <- H; try reflexivity; symmetry in H; contradiction.
Qed.
Lemma ends_checked : forallb room_ends all_fields = true.
Proof. vm_cast_no_check (eq_refl true). Qed.
Lemma room_limit F : In F all_fields -> exists c k x, canonical F c /\ is_i32 k /\ computes_small F "mul" c k x /\ value F x = value F c * k /\ within F (room F + 1) x /\
  (exists o, or_panics F "F::mul_assign(&F)" [VArr x; VArr x] [] [VArr o; VArr x] /\ ~ eqmod F (value F o) (value F x * value F x)) /\
  (exists o, or_panics F "F::square" [VArr x] [] [VArr o] /\ ~ eqmod F (value F o) (value F x * value F x)) /\
  (F <> e383_187 -> F <> e521_1 -> rust_call Debug (fl_tbl F) "F::mul_assign(&F)" [VArr x; VArr x] = Panic /\ rust_call Debug (fl_tbl F) "F::square" [VArr x] = Panic).
Proof.
  intros HF. pose proof (all_chk _ ends_checked F HF) as K. unfold room_ends in K. cbv zeta in K.
  revert K. generalize (last F). intros [c k]. cbn [fst snd]. generalize (asg F "F::small_mul_assign" [VArr c; VInt k]). intros x K.
  apply andb_true_iff in K as [K K7]. apply andb_true_iff in K as [K K6]. apply andb_true_iff in K as [K K5]. apply andb_true_iff in K as [K K4]. apply andb_true_iff in K as [K K3]. apply andb_true_iff in K as [K1 K2].
  apply ends_ok in K6 as (o & O1 & O2 & O3). apply ends_ok in K7 as (s & S1 & S2 & S3). apply andb_true_iff in K2 as [Ka Kb].
  exists c, k, x. split; [now apply canonicalb_ok|]. split; [unfold is_i32; lia|]. split; [now apply computes_smallb_ok|]. split; [now apply Z.eqb_eq|]. split; [now apply repb_ok|].
  split; [exists o; now split|]. split; [exists s; now split|]. intros N1 N2. pose proof (quiet_no F HF N1 N2). auto.
Qed.
