(** The curve code over the five shipped fields: it never panics. *)
From Coq Require Import ZArith Znumtheory List String Lia Bool.
From Verif Require Import Lang Poly Kernel Fields Kfacts Ops Words Codec Normalize Methods Surface Forms Arith Observe NumTheory Safe History
  EdwardsSpec Edwards CurveSpec.
From Verif Require Src_edwards Src_curves.
Import ListNotations.
Local Open Scope string_scope.
Local Open Scope Z_scope.
Local Open Scope list_scope.

(** ** Field functions behave the same inside a curve's table *)
Definition closed_tbl (T : list (string * func)) : bool :=
  forallb (fun fg => forallb (fun f => match lookup f T with Some _ => true | None => false end) (flat_map callees (f_body (snd fg)))) T.
Lemma lookup_pair {A} f (T : list (string * A)) g : lookup f T = Some g -> In (f, g) T.
Proof. induction T as [|[h x] T IH]; cbn [lookup]; [discriminate|]. destruct (String.eqb_spec f h) as [->|]; intros E; [injection E as <-; now left|right; auto]. Qed.
Lemma call_embed md base T T' : closed_tbl T = true -> (forall f g, lookup f T = Some g -> lookup f T' = Some g) ->
  forall k f vs, lookup f T <> None -> call md base T' k f vs = call md base T k f vs.
Proof.
  intros C S. induction k as [|k IH]; intros f vs N; destruct (lookup f T) as [g|] eqn:E; try congruence.
  - cbn [call]. rewrite E, (S _ _ E). reflexivity.
  - cbn [call]. rewrite E, (S _ _ E). apply run_func_callees. intros f' Hf' vs'. apply IH.
    unfold closed_tbl in C. rewrite forallb_forall in C. specialize (C _ (lookup_pair _ _ _ E)). cbn [snd] in C. rewrite forallb_forall in C.
    specialize (C _ Hf'). destruct (lookup f' T); congruence.
Qed.
Lemma fields_closed : forallb (fun F => closed_tbl (fl_tbl F)) all_fields = true. Proof. vm_compute. reflexivity. Qed.

Lemma curve_field C : In C all_curves -> In (cv_fld C) all_fields.
Proof. intros H. repeat (destruct H as [<-|H]; [cbn; tauto|]). destruct H. Qed.
Lemma lookup_app {A} f (T T' : list (string * A)) : lookup f (T ++ T') = match lookup f T with Some g => Some g | None => lookup f T' end.
Proof. induction T as [|[h x] T IH]; cbn [lookup app]; [reflexivity|]. destruct (String.eqb f h); auto. Qed.
Definition d_words (C : crv) : list Z := match lookup "C::d_val" (cv_tbl C) with Some (mkfunc [] [] [ELit l]) => l | _ => [] end.
Lemma curve_table C : In C all_curves -> cv_tbl C = ("C::d_val", mkfunc [] [] [ELit (d_words C)]) :: fl_tbl (cv_fld C) ++ Src_edwards.table.
Proof. intros H. repeat (destruct H as [<-|H]; [reflexivity|]). destruct H. Qed.
Definition disjoint (F : fld) : bool :=
  match lookup "C::d_val" (fl_tbl F) with Some _ => false | None => true end &&
  forallb (fun fg => match lookup (fst fg) (fl_tbl F) with Some _ => false | None => true end) Src_edwards.table.
Lemma tables_disjoint : forallb disjoint all_fields = true. Proof. vm_compute. reflexivity. Qed.
Lemma curve_has_field C f g : In C all_curves -> lookup f (fl_tbl (cv_fld C)) = Some g -> lookup f (cv_tbl C) = Some g.
Proof.
  intros H L. rewrite (curve_table C H). cbn [lookup]. destruct (String.eqb_spec f "C::d_val") as [->|].
  - pose proof (all_chk _ tables_disjoint _ (curve_field C H)) as D. unfold disjoint in D. rewrite L in D. discriminate D.
  - rewrite lookup_app, L. reflexivity.
Qed.
Lemma curve_has_edwards C f g : In C all_curves -> lookup f Src_edwards.table = Some g -> lookup f (cv_tbl C) = Some g.
Proof.
  intros H L. rewrite (curve_table C H). cbn [lookup]. destruct (String.eqb_spec f "C::d_val") as [->|]; [discriminate L|].
  rewrite lookup_app. pose proof (all_chk _ tables_disjoint _ (curve_field C H)) as D. unfold disjoint in D. apply andb_true_iff in D as [_ D].
  rewrite forallb_forall in D. specialize (D _ (lookup_pair _ _ _ L)). cbn [fst] in D. destruct (lookup f (fl_tbl (cv_fld C))); [discriminate|exact L].
Qed.
Lemma field_call C md k f vs : In C all_curves -> lookup f (fl_tbl (cv_fld C)) <> None ->
  call md no_base (cv_tbl C) k f vs = call md no_base (fl_tbl (cv_fld C)) k f vs.
Proof.
  intros H L. apply call_embed; auto; [|intros; now apply curve_has_field].
  apply (all_chk _ fields_closed). now apply curve_field.
Qed.

(** ** The field calls the curve code makes *)
Lemma same_mul_ref : same "(&F)::mul(&F)" Src_e221_3.f_ref_mul_ref. Proof. same_tac. Qed.
Lemma same_mul_val : same "F::mul(F)" Src_e221_3.f_mul_val. Proof. same_tac. Qed.
Lemma same_add_ref : same "(&F)::add(&F)" Src_e221_3.f_ref_add_ref. Proof. same_tac. Qed.
Lemma same_add_val : same "F::add(F)" Src_e221_3.f_add_val. Proof. same_tac. Qed.
Lemma same_sub_ref : same "(&F)::sub(&F)" Src_e221_3.f_ref_sub_ref. Proof. same_tac. Qed.
Lemma same_sub_val : same "F::sub(F)" Src_e221_3.f_sub_val. Proof. same_tac. Qed.
Lemma same_squared : same "F::squared" Src_e221_3.f_squared. Proof. same_tac. Qed.

Lemma mul_val F a b o : In F all_fields -> runsd 1 F "F::mul_assign(&F)" [a; b] [] [o; b] -> runsd 3 F "F::mul(F)" [a; b] [o] [a; b].
Proof.
  intros H R. assert (R2 : runsd 2 F "(&F)::mul(&F)" [a; b] [o] [a; b]).
  { apply (call_step _ _ _ _ _ _ _ (same_mul_ref F H)). intros md fuel Hf. unfold Src_e221_3.f_ref_mul_ref. evm. callee R. reflexivity. }
  apply (call_step _ _ _ _ _ _ _ (same_mul_val F H)). intros md fuel Hf. unfold Src_e221_3.f_mul_val. evm. callee R2. reflexivity.
Qed.
Lemma add_val F a b o : In F all_fields -> runsd 1 F "F::add_assign(&F)" [a; b] [] [o; b] -> runsd 3 F "F::add(F)" [a; b] [o] [a; b].
Proof.
  intros H R. assert (R2 : runsd 2 F "(&F)::add(&F)" [a; b] [o] [a; b]).
  { apply (call_step _ _ _ _ _ _ _ (same_add_ref F H)). intros md fuel Hf. unfold Src_e221_3.f_ref_add_ref. evm. callee R. reflexivity. }
  apply (call_step _ _ _ _ _ _ _ (same_add_val F H)). intros md fuel Hf. unfold Src_e221_3.f_add_val. evm. callee R2. reflexivity.
Qed.
Lemma sub_val F a b o : In F all_fields -> runsd 1 F "F::sub_assign(&F)" [a; b] [] [o; b] -> runsd 3 F "F::sub(F)" [a; b] [o] [a; b].
Proof.
  intros H R. assert (R2 : runsd 2 F "(&F)::sub(&F)" [a; b] [o] [a; b]).
  { apply (call_step _ _ _ _ _ _ _ (same_sub_ref F H)). intros md fuel Hf. unfold Src_e221_3.f_ref_sub_ref. evm. callee R. reflexivity. }
  apply (call_step _ _ _ _ _ _ _ (same_sub_val F H)). intros md fuel Hf. unfold Src_e221_3.f_sub_val. evm. callee R2. reflexivity.
Qed.
Lemma squared_val F a o : In F all_fields -> runsd 1 F "F::square" [a] [] [o] -> runsd 3 F "F::squared" [a] [o] [a].
Proof.
  intros H R. apply (runsd_weaken 2); [lia|]. apply (call_step _ _ _ _ _ _ _ (same_squared F H)). intros md fuel Hf. unfold Src_e221_3.f_squared. evm. callee R. reflexivity.
Qed.
Lemma small_val F a k o : In F all_fields -> runsd 1 F "F::small_mul_assign" [a; VInt k] [] [o; VInt k] -> runsd 3 F "F::small_mul" [a; VInt k] [o] [a; VInt k].
Proof.
  intros H R. apply (runsd_weaken 2); [lia|]. apply (call_step _ _ _ _ _ _ _ (same_small_mul F H)). intros md fuel Hf. unfold Src_e221_3.f_small_mul. evm. callee R. reflexivity.
Qed.

(** the bit the code reads from any array *)
Definition read_bit (F : fld) (a : list Z) (i : Z) : bool := Z.land (Z.shiftr (nth (Z.to_nat (i / fl_w F)) a 0) (i mod fl_w F)) 1 =? 1.
Lemma read_bit_runs F a i : In F all_fields -> List.length a = fl_n F -> 0 <= i < fl_w F * Z.of_nat (fl_n F) ->
  runsd 1 F "F::bit_normalized" [VArr a; VInt i] [VInt (if read_bit F a i then 1 else 0)] [VArr a; VInt i].
Proof.
  intros H La Hi. destruct (layout_facts F H) as (Ln & Lw & Lt & _).
  assert (Q : 0 <= i / fl_w F < Z.of_nat (fl_n F)) by (split; [apply Z.div_pos; lia|apply Z.div_lt_upper_bound; lia]).
  pose proof (Z.mod_pos_bound i (fl_w F) ltac:(lia)) as M.
  apply (call_step _ _ _ _ _ _ _ (bit_normalized_body F H)). intros md fuel Hf.
  unfold b_bit_normalized. evm. destruct (Z.eqb_spec (fl_w F) 0); [lia|]. evm.
  replace (znth a (i / fl_w F)) with (Some (nth (Z.to_nat (i / fl_w F)) a 0)).
  2:{ rewrite <- (Z2Nat.id (i / fl_w F)) at 2 by lia. symmetry. apply znth_nth. lia. }
  rewrite shamt_ok by lia. reflexivity.
Qed.

Lemma d_checked : forallb (fun C => repb (cv_fld C) (- 2 ^ fl_tb (cv_fld C) - 1) (2 * 2 ^ fl_tb (cv_fld C) + (fl_C (cv_fld C) - 1)) (d_words C)) all_curves = true.
Proof. vm_compute. reflexivity. Qed.
Lemma d_produced C : In C all_curves -> produced (cv_fld C) (d_words C).
Proof. intros H. apply repb_ok. exact (proj1 (forallb_forall _ _) d_checked C H). Qed.

Section Shipped.
Variable C : crv.
Hypothesis HC : In C all_curves.
Let F := cv_fld C.
Let HF : In F all_fields := curve_field C HC.
Definition arr (q : list Z -> Prop) (v : val) : Prop := exists l, v = VArr l /\ q l.
Definition mask_val (b : bool) : val := VArr (repeat (mask_of b) (fl_n F)).

Lemma up n f args rets outs : (n <= 8)%nat -> has f F = true -> runsd n F f args rets outs ->
  forall i, from no_base (cv_tbl C) 8 i f args = Ok (rets, outs).
Proof.
  intros N Hh R (md, k). unfold from. rewrite field_call; auto; [|unfold has in Hh; fold F; destruct (lookup f (fl_tbl F)); discriminate].
  apply R. cbn [snd]. lia.
Qed.
Lemma has_all f : forallb (has f) all_fields = true -> has f F = true.
Proof. intros K. exact (all_chk _ K F HF). Qed.
Lemma const_produced f : In f ["F::zero"; "F::one"] -> produced F (lit F f).
Proof.
  intros I. apply repb_ok. pattern F. apply (all_chk (fun F => repb F (- 2 ^ fl_tb F - 1) (2 * 2 ^ fl_tb F + (fl_C F - 1)) (lit F f))); [|exact HF].
  destruct I as [<-|[<-|[]]]; vm_compute; reflexivity.
Qed.
Ltac hs := apply has_all; vm_compute; reflexivity.
Lemma shipped_klaws : klaws 1 0 (nbits F) (arr (produced F)) (arr (wide F)) (arr (produced F)) (fun _ => 0)
  (fun v j => match v with VArr l => read_bit F l j | VInt _ => false end) mask_val (from no_base (cv_tbl C) 8).
Proof.
  assert (ONE : forall a b, cong 1 a b) by (intros; apply Z.divide_1_l).
  destruct (const_body F HF) as (B1 & B2 & _ & _ & B5 & _).
  constructor.
  - intros a (l & -> & P). exists l. split; auto. now apply produced_wide.
  - intros a b (x & -> & X) (y & -> & Y). destruct (mul_runs F x y HF X Y) as (o & R & Ro). exists (VArr o), (VArr x), (VArr y).
    split; [|split; [exists o; split; auto; now apply fresh_produced'|apply ONE]]. apply (up 3); [lia|hs|]. now apply mul_val.
  - intros a b (x & -> & X) (y & -> & Y). destruct (add_ok F x y HF (wide_any F x HF X) (wide_any F y HF Y)) as (o & R & Ro & _). exists (VArr o), (VArr x), (VArr y).
    split; [|split; [exists o; split; auto; now apply sum_produced|apply ONE]]. apply (up 3); [lia|hs|]. now apply add_val.
  - intros a b (x & -> & X) (y & -> & Y). destruct (sub_ok F x y HF (wide_any F x HF X) (wide_any F y HF Y)) as (o & R & Ro & _). exists (VArr o), (VArr x), (VArr y).
    split; [|split; [exists o; split; auto; now apply diff_produced|apply ONE]]. apply (up 3); [lia|hs|]. now apply sub_val.
  - intros a (x & -> & X). destruct (square_runs F x HF X) as (o & R & Ro). exists (VArr o), (VArr x).
    split; [|split; [exists o; split; auto; now apply fresh_produced'|apply ONE]]. apply (up 3); [lia|hs|]. now apply squared_val.
  - intros a (x & -> & X). destruct (smul4_runs F x 2 HF X ltac:(lia)) as (o & R & Ro). exists (VArr o), (VArr x), (VInt 2).
    split; [|split; [exists o; split; auto|apply ONE]]. apply (up 3); [lia|hs|]. now apply small_val.
  - exists (VArr (lit F "F::zero")). split; [apply (up 1); [lia|hs|]; now apply const_runs|]. split; [|apply ONE]. eexists. split; [reflexivity|apply const_produced; cbn; auto].
  - exists (VArr (lit F "F::one")). split; [apply (up 1); [lia|hs|]; now apply const_runs|]. split; [|apply ONE]. eexists. split; [reflexivity|apply const_produced; cbn; auto].
  - exists (VArr (d_words C)). split; [|split; [exists (d_words C); split; auto; now apply d_produced|apply ONE]].
    intros (md, k). unfold from. cbn [Nat.add call]. rewrite (curve_table C HC). reflexivity.
  - split; [apply (up 1); [lia|hs|]; now apply int_runs|].
    assert (K : (0 <? nbits F) && (nbits F <? 2 ^ 31) = true) by (apply (all_chk (fun F => (0 <? nbits F) && (nbits F <? 2 ^ 31))); [vm_compute; reflexivity|exact HF]).
    apply andb_true_iff in K. lia.
  - intros a (x & -> & X). destruct (norm_any F x HF (wide_any F x HF X)) as (o & R & P). exists (VArr o). split; [apply (up 4); [lia|hs|exact R]|exists o; auto].
  - intros a j (x & -> & X) J. exists (VArr x), (VInt j). apply (up 1); [lia|hs|]. apply read_bit_runs; [exact HF|apply X|].
    pose proof (bits_enough F HF). lia.
  - intros b. exists (VInt (b2z b)). apply (up 1); [lia|hs|]. replace (if b then 1 else 0) with (b2z b) by (destruct b; reflexivity).
    apply filled_runs; cbn; auto.
  - intros b x0 y0 (x & -> & X) (y & -> & Y). unfold mask_val.
    assert (Lx : List.length x = fl_n F) by apply X. assert (Ly : List.length y = fl_n F) by apply Y.
    pose proof (repeat_length (mask_of b) (fl_n F)) as L1. pose proof (repeat_length (mask_of (negb b)) (fl_n F)) as L2.
    pose proof (repeat_length 0 (fl_n F)) as L0.
    pose proof (bitand_words F x _ HF Lx L1) as R1. pose proof (bitand_words F y _ HF Ly L2) as R2. rewrite zipw_mask in R1, R2 by auto.
    exists (VArr (if b then x else repeat 0 (fl_n F))), (VArr (if negb b then y else repeat 0 (fl_n F))), (VArr (if b then x else y)).
    exists (VArr (repeat (mask_of b) (fl_n F))), (VArr (repeat (mask_of (negb b)) (fl_n F))), (VArr (if negb b then y else repeat 0 (fl_n F))).
    split; [apply (up 1); [lia|hs|exact R1]|]. split; [apply (up 1); [lia|hs|exact R2]|]. split.
    + apply (up 1); [lia|hs|]. destruct b; cbn [negb].
      * rewrite <- (zipw_or_0_r (fl_n F) x Lx) at 2. apply bitor_words; auto.
      * rewrite <- (zipw_or_0_l (fl_n F) y Ly) at 2. apply bitor_words; auto.
    + split; [|apply ONE]. destruct b; eexists; split; eauto.
Qed.

Lemma has_ed f fn : lookup f Src_edwards.table = Some fn -> lookup f (cv_tbl C) = Some fn.
Proof. now apply curve_has_edwards. Qed.
Lemma deep16 n f vs rets outs : calls no_base (cv_tbl C) n f vs (rets, outs) -> (n <= 16)%nat -> point_runs C f vs rets outs.
Proof. intros K N md. apply K. exact N. Qed.
Lemma point_split P : produced_point C P -> arr (produced F) (eX P) /\ arr (produced F) (eY P) /\ arr (produced F) (eZ P) /\ arr (produced F) (eT P).
Proof. intros (x & y & z & t & -> & X & Y & Z & T). cbn [eX eY eZ eT]. unfold arr. repeat split; eexists; eauto. Qed.
Lemma point_join X Y Z T : arr (produced F) X -> arr (produced F) Y -> arr (produced F) Z -> arr (produced F) T -> produced_point C (Ext X Y Z T).
Proof. intros (x & -> & Px) (y & -> & Py) (z & -> & Pz) (t & -> & Pt). exists x, y, z, t. auto. Qed.
Ltac fin K := unfold coords; cbn [eX eY eZ eT app]; eapply deep16; [exact K|lia].

Lemma curve_sum_safe P Q : produced_point C P -> produced_point C Q -> exists R, curve_sum C P Q R /\ produced_point C R.
Proof.
  intros HP HQ. apply point_split in HP as (A1 & A2 & A3 & A4), HQ as (B1 & B2 & B3 & B4). destruct P as [X1 Y1 Z1 T1], Q as [X2 Y2 Z2 T2]. cbn [eX eY eZ eT] in *.
  destruct (add_ref_call _ _ _ _ _ _ _ _ _ _ _ _ has_ed shipped_klaws _ _ _ _ _ _ _ _ A1 A2 A3 A4 B1 B2 B3 B4) as (X & Y & Z & T & K & O1 & O2 & O3 & O4 & _).
  destruct (add_val_call _ _ has_ed _ _ _ _ _ _ _ _ _ _ _ _ _ _ K eq_refl) as (C2 & C3 & C4).
  exists (Ext X Y Z T). split; [|now apply point_join]. split; [fin K|split; [fin C2|split; [fin C3|fin C4]]].
Qed.
Lemma curve_double_safe P : produced_point C P -> exists R, curve_double C P R /\ produced_point C R.
Proof.
  intros HP. apply point_split in HP as (A1 & A2 & A3 & A4). destruct P as [X1 Y1 Z1 T1]. cbn [eX eY eZ eT] in *.
  destruct (double_call _ _ _ _ _ _ _ _ _ _ _ _ has_ed shipped_klaws _ _ _ T1 A1 A2 A3) as (X & Y & Z & T & K & O1 & O2 & O3 & O4 & _).
  pose proof (doubled_call _ _ has_ed _ _ _ _ _ _ _ _ _ K) as C2.
  exists (Ext X Y Z T). split; [|now apply point_join]. split; [fin K|fin C2].
Qed.
Lemma curve_triple_safe P : produced_point C P -> exists R, curve_triple C P R /\ produced_point C R.
Proof.
  intros HP. apply point_split in HP as (A1 & A2 & A3 & A4). destruct P as [X1 Y1 Z1 T1]. cbn [eX eY eZ eT] in *.
  destruct (triple_call _ _ _ _ _ _ _ _ _ _ _ _ has_ed shipped_klaws _ _ _ T1 A1 A2 A3) as (X & Y & Z & T & K & O1 & O2 & O3 & O4 & _).
  pose proof (tripled_call _ _ has_ed _ _ _ _ _ _ _ _ _ K) as C2.
  exists (Ext X Y Z T). split; [|now apply point_join]. split; [fin K|fin C2].
Qed.
Lemma curve_zero_safe : exists R, point_runs C "P::zero" [] (coords R) [] /\ produced_point C R.
Proof.
  destruct (zero_call _ _ _ _ _ _ _ _ _ _ _ _ has_ed shipped_klaws) as (X & Y & Z & T & K & O1 & O2 & O3 & O4 & _).
  exists (Ext X Y Z T). split; [|now apply point_join]. fin K.
Qed.
Lemma curve_init_safe P x y : produced F x -> produced F y ->
  exists R, point_runs C "P::init" (coords P ++ [VArr x; VArr y]) [] (coords R ++ [VArr x; VArr y]) /\ produced_point C R /\ eX R = VArr x /\ eY R = VArr y.
Proof.
  intros HX HY. destruct P as [X1 Y1 Z1 T1].
  destruct (init_call _ _ _ _ _ _ _ _ _ _ _ _ has_ed shipped_klaws X1 Y1 Z1 T1 (VArr x) (VArr y)) as (Z & T & K & O3 & O4 & _).
  exists (Ext (VArr x) (VArr y) Z T). split; [fin K|]. split; [|auto]. apply point_join; auto; eexists; eauto.
Qed.
Lemma one_nz : 1 <> 0.
Proof. discriminate. Qed.
Lemma curve_ladder_safe P n : produced_point C P -> produced F n ->
  exists R, point_runs C "P::scalar_mult_normalized" (coords P ++ [VArr n]) [] (coords R ++ [VArr n]) /\ produced_point C R.
Proof.
  intros HP N. apply point_split in HP as (A1 & A2 & A3 & A4). destruct P as [X1 Y1 Z1 T1]. cbn [eX eY eZ eT] in *.
  destruct (ladder_call _ _ _ _ _ _ _ _ _ _ _ _ one_nz has_ed shipped_klaws X1 Y1 Z1 T1 (VArr n) A1 A2 A3 A4 ltac:(exists n; auto)) as (X & Y & Z & T & K & O1 & O2 & O3 & O4 & _).
  exists (Ext X Y Z T). split; [|now apply point_join]. fin K.
Qed.
Lemma curve_scalar_safe P n : produced_point C P -> produced F n ->
  exists R n', point_runs C "P::scalar_mult" (coords P ++ [VArr n]) [] (coords R ++ [VArr n']) /\ produced_point C R /\
    runs F "F::normalize" [VArr n] [] [VArr n'].
Proof.
  intros HP N. apply point_split in HP as (A1 & A2 & A3 & A4). destruct P as [X1 Y1 Z1 T1]. cbn [eX eY eZ eT] in *.
  assert (W : arr (wide F) (VArr n)) by (exists n; split; auto; now apply produced_wide).
  destruct (scalar_mult_call _ _ _ _ _ _ _ _ _ _ _ _ one_nz has_ed shipped_klaws X1 Y1 Z1 T1 (VArr n) A1 A2 A3 A4 W) as (X & Y & Z & T & r & K & E & O1 & O2 & O3 & O4 & _).
  destruct (norm_any F n HF (produced_any F n HF N)) as (o & R & P). assert (r = VArr o) as ->.
  { specialize (E Debug 16%nat ltac:(lia)). rewrite field_call in E; auto.
    2:{ fold F. pose proof (has_all "F::normalize" ltac:(vm_compute; reflexivity)) as Hh. unfold has in Hh. destruct (lookup "F::normalize" (fl_tbl F)); discriminate. }
    fold F in E. rewrite (R Debug 16%nat ltac:(lia)) in E. now injection E as <-. }
  exists (Ext X Y Z T), o. split; [fin K|]. split; [now apply point_join|]. eapply runsd_runs; [|exact R]. lia.
Qed.

(** ** Programs over points *)
Lemma Forall_set st i P : Forall (produced_point C) st -> produced_point C P -> Forall (produced_point C) (set_nth st i P).
Proof. intros H HP. revert i. induction H; intros [|i]; cbn [set_nth]; constructor; auto. Qed.
Lemma set_len st i P : List.length (set_nth st i P) = List.length st.
Proof. revert i. induction st; intros [|i]; cbn [set_nth List.length]; auto. Qed.
Lemma pvar_ok st i : Forall (produced_point C) st -> (i < List.length st)%nat -> exists P, pvar st i = Ok P /\ produced_point C P.
Proof.
  intros H I. unfold pvar. destruct (nth_error st i) as [P|] eqn:E; [|apply nth_error_None in E; lia].
  exists P. split; auto. apply nth_error_In in E. rewrite Forall_forall in H. auto.
Qed.
Lemma to_ext_coords R l : to_ext (coords R ++ l) = Ok R.
Proof. destruct R. reflexivity. Qed.
Lemma to_ext_coords0 R : to_ext (coords R) = Ok R.
Proof. destruct R. reflexivity. Qed.
Lemma programs_safe cs : forall st, Forall (produced_point C) st -> usable C cs (List.length st) ->
  exists st', (forall md, prun md C cs st = Ok st') /\ Forall (produced_point C) st'.
Proof.
  induction cs as [|c cs IH]; intros st HS U; [exists st; auto|].
  assert (NEW : forall R, produced_point C R -> (forall md, pstep md C c st = Ok (st ++ [R])) -> usable C cs (S (List.length st)) ->
    exists st', (forall md, prun md C (c :: cs) st = Ok st') /\ Forall (produced_point C) st').
  { intros R PR E U'. destruct (IH (st ++ [R])) as (st' & E' & P'); [apply Forall_app; auto| |].
    - rewrite app_length. cbn [List.length]. rewrite Nat.add_1_r. exact U'.
    - exists st'. split; auto. intros md. cbn [prun]. rewrite E. exact (E' md). }
  assert (SET : forall i R, produced_point C R -> (forall md, pstep md C c st = Ok (set_nth st i R)) -> usable C cs (List.length st) ->
    exists st', (forall md, prun md C (c :: cs) st = Ok st') /\ Forall (produced_point C) st').
  { intros i R PR E U'. destruct (IH (set_nth st i R)) as (st' & E' & P'); [apply Forall_set; auto|rewrite set_len; exact U'|].
    exists st'. split; auto. intros md. cbn [prun]. rewrite E. exact (E' md). }
  Ltac go E := intros md; cbn [pstep]; unfold new_point, set_point;
    repeat match goal with H : pvar _ _ = Ok _ |- _ => rewrite H; clear H end; cbn [bind]; rewrite (E md); cbn [bind fst snd];
    rewrite ?to_ext_coords, ?to_ext_coords0; reflexivity.
  destruct c as [|i x y|i j|i j|i|i|i|i|i n|i n]; cbn [usable] in U.
  - destruct curve_zero_safe as (R & E & PR). apply (NEW R PR); auto. go E.
  - destruct U as (I & X & Y & U). destruct (pvar_ok st i HS I) as (P & V & HP). destruct (curve_init_safe P x y X Y) as (R & E & PR & _).
    apply (SET i R PR); auto. go E.
  - destruct U as (I & J & U). destruct (pvar_ok st i HS I) as (P & V & HP). destruct (pvar_ok st j HS J) as (Q & W & HQ).
    destruct (curve_sum_safe P Q HP HQ) as (R & (_ & _ & E & _) & PR). apply (NEW R PR); auto. go E.
  - destruct U as (I & J & U). destruct (pvar_ok st i HS I) as (P & V & HP). destruct (pvar_ok st j HS J) as (Q & W & HQ).
    destruct (curve_sum_safe P Q HP HQ) as (R & (_ & E & _) & PR). apply (SET i R PR); auto. go E.
  - destruct U as (I & U). destruct (pvar_ok st i HS I) as (P & V & HP). destruct (curve_double_safe P HP) as (R & (E & _) & PR). apply (SET i R PR); auto. go E.
  - destruct U as (I & U). destruct (pvar_ok st i HS I) as (P & V & HP). destruct (curve_double_safe P HP) as (R & (_ & E) & PR). apply (NEW R PR); auto. go E.
  - destruct U as (I & U). destruct (pvar_ok st i HS I) as (P & V & HP). destruct (curve_triple_safe P HP) as (R & (E & _) & PR). apply (SET i R PR); auto. go E.
  - destruct U as (I & U). destruct (pvar_ok st i HS I) as (P & V & HP). destruct (curve_triple_safe P HP) as (R & (_ & E) & PR). apply (NEW R PR); auto. go E.
  - destruct U as (I & N & U). destruct (pvar_ok st i HS I) as (P & V & HP). destruct (curve_scalar_safe P n HP N) as (R & n' & E & PR & _). apply (SET i R PR); auto. go E.
  - destruct U as (I & N & U). destruct (pvar_ok st i HS I) as (P & V & HP). destruct (curve_ladder_safe P n HP N) as (R & E & PR). apply (SET i R PR); auto. go E.
Qed.
End Shipped.
