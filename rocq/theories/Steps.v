(** Scalar multiplication on the shipped curves, word by word (C59). *)
From Coq Require Import ZArith Znumtheory List String Lia Bool.
From Verif Require Import Lang Poly Kernel Fields Kfacts Ops Words Codec Normalize Methods Surface Forms Arith Observe Safe
  EdwardsSpec EdwardsAlg Edwards CurveSpec Curves StepsSpec.
From Verif Require Import Src_edwards.
From Verif Require Src_curves.
Import ListNotations.
Local Open Scope string_scope.
Local Open Scope Z_scope.
Local Open Scope list_scope.

Section Shipped.
Variable C : crv.
Hypothesis HC : In C all_curves.
Let F := cv_fld C.
Let HF : In F all_fields := curve_field C HC.
Let T := cv_tbl C.
Notation CL := (calls no_base T).
Notation FROM := (from no_base T).
Notation mask := (mask_val C).
Let nb := nbits F.
Let KL := shipped_klaws C HC.

Ltac hs := apply (has_all C HC); vm_compute; reflexivity.
Lemma word_select (b : bool) x y : produced F x -> produced F y ->
  exists xa xb u1 u2 u3, CL 8 "F::normalized_bitand" [VArr x; mask b] ([], [xa; u1]) /\ CL 8 "F::normalized_bitand" [VArr y; mask (negb b)] ([], [xb; u2]) /\
    CL 8 "F::normalized_bitor" [xa; xb] ([], [VArr (if b then x else y); u3]).
Proof.
  intros X Y. unfold mask_val.
  assert (Lx : List.length x = fl_n F) by apply X. assert (Ly : List.length y = fl_n F) by apply Y.
  pose proof (repeat_length (mask_of b) (fl_n F)) as L1. pose proof (repeat_length (mask_of (negb b)) (fl_n F)) as L2.
  pose proof (repeat_length 0 (fl_n F)) as L0.
  pose proof (bitand_words F x _ HF Lx L1) as R1. pose proof (bitand_words F y _ HF Ly L2) as R2. rewrite zipw_mask in R1, R2 by auto.
  exists (VArr (if b then x else repeat 0 (fl_n F))), (VArr (if negb b then y else repeat 0 (fl_n F))).
  exists (VArr (repeat (mask_of b) (fl_n F))), (VArr (repeat (mask_of (negb b)) (fl_n F))), (VArr (if negb b then y else repeat 0 (fl_n F))).
  rewrite <- !from_calls. split; [apply (up C HC 1); [lia|hs|exact R1]|]. split; [apply (up C HC 1); [lia|hs|exact R2]|].
  apply (up C HC 1); [lia|hs|]. destruct b; cbn [negb].
  - rewrite <- (zipw_or_0_r (fl_n F) x Lx) at 2. apply bitor_words; auto.
  - rewrite <- (zipw_or_0_l (fl_n F) y Ly) at 2. apply bitor_words; auto.
Qed.
Lemma point_select (b : bool) P Q : produced_point C P -> produced_point C Q ->
  let R := if b then P else Q in exists xa ya za ta xb yb zb tb,
    CL 9 "P::normalized_bitand" [eX P; eY P; eZ P; eT P; mask b] ([], [xa; ya; za; ta; mask b]) /\
    CL 9 "P::normalized_bitand" [eX Q; eY Q; eZ Q; eT Q; mask (negb b)] ([], [xb; yb; zb; tb; mask (negb b)]) /\
    CL 9 "P::normalized_bitor" [xa; ya; za; ta; xb; yb; zb; tb] ([], [eX R; eY R; eZ R; eT R; xb; yb; zb; tb]).
Proof.
  intros (x & y & z & t & -> & X & Y & Z & W) (x2 & y2 & z2 & t2 & -> & X2 & Y2 & Z2 & W2).
  destruct (word_select b x x2 X X2) as (xa & xb & ? & ? & ? & E1 & E2 & E3).
  destruct (word_select b y y2 Y Y2) as (ya & yb & ? & ? & ? & F1 & F2 & F3).
  destruct (word_select b z z2 Z Z2) as (za & zb & ? & ? & ? & G1 & G2 & G3).
  destruct (word_select b t t2 W W2) as (ta & tb & ? & ? & ? & H1 & H2 & H3).
  cbv zeta. exists xa, ya, za, ta, xb, yb, zb, tb.
  split; [eapply (and_call no_base T 8 (has_ed C HC)); eassumption|]. split; [eapply (and_call no_base T 8 (has_ed C HC)); eassumption|].
  destruct b; cbn [eX eY eZ eT]; eapply (or_call no_base T 8 (has_ed C HC)); eassumption.
Qed.
Lemma add_words P Q : produced_point C P -> produced_point C Q ->
  exists R, curve_sum C P Q R /\ produced_point C R /\ CL 10 "P::add_assign(P)" [eX P; eY P; eZ P; eT P; eX Q; eY Q; eZ Q; eT Q] ([], [eX R; eY R; eZ R; eT R; eX Q; eY Q; eZ Q; eT Q]).
Proof.
  intros HP HQ. apply point_split in HP as (A1 & A2 & A3 & A4), HQ as (B1 & B2 & B3 & B4). destruct P as [X1 Y1 Z1 T1], Q as [X2 Y2 Z2 T2]. cbn [eX eY eZ eT] in *.
  destruct (add_ref_call _ _ _ _ _ _ _ _ _ _ _ _ (has_ed C HC) KL _ _ _ _ _ _ _ _ A1 A2 A3 A4 B1 B2 B3 B4) as (X & Y & Z & W & K & O1 & O2 & O3 & O4 & _).
  destruct (add_val_call _ _ (has_ed C HC) _ _ _ _ _ _ _ _ _ _ _ _ _ _ K eq_refl) as (C2 & C3 & C4).
  exists (Ext X Y Z W). split; [|split; [now apply point_join|exact C2]].
  unfold curve_sum, coords; cbn [eX eY eZ eT app].
  split; [eapply deep16; [exact K|lia]|split; [eapply deep16; [exact C2|lia]|split; [eapply deep16; [exact C3|lia]|eapply deep16; [exact C4|lia]]]].
Qed.
Lemma double_words P : produced_point C P ->
  exists R, curve_double C P R /\ produced_point C R /\ CL 9 "P::double" [eX P; eY P; eZ P; eT P] ([], [eX R; eY R; eZ R; eT R]).
Proof.
  intros HP. apply point_split in HP as (A1 & A2 & A3 & A4). destruct P as [X1 Y1 Z1 T1]. cbn [eX eY eZ eT] in *.
  destruct (double_call _ _ _ _ _ _ _ _ _ _ _ _ (has_ed C HC) KL _ _ _ T1 A1 A2 A3) as (X & Y & Z & W & K & O1 & O2 & O3 & O4 & _).
  pose proof (doubled_call _ _ (has_ed C HC) _ _ _ _ _ _ _ _ _ K) as C2.
  exists (Ext X Y Z W). split; [|split; [now apply point_join|exact K]].
  unfold curve_double, coords; cbn [eX eY eZ eT]. split; [eapply deep16; [exact K|lia]|eapply deep16; [exact C2|lia]].
Qed.

Section Run.
Variables (P : ext) (n : list Z) (Z0 : ext).
Hypothesis HN : produced F n.
Definition env0' (R0 R1 : ext) : env := env0 nb (eX P) (eY P) (eZ P) (eT P) (VArr n) (eX Z0) (eY Z0) (eZ Z0) (eT Z0)
  (eX R0) (eY R0) (eZ R0) (eT R0) (eX R1) (eY R1) (eZ R1) (eT R1).
Definition prepared (en : env) (R0 R1 : ext) : Prop := en = env0' R0 R1 \/
  exists i idx bit tm fm d0x d0y d0z d0t d1x d1y d1z d1t,
   en = (env0' R0 R1 ++ [("i", i); ("idx", idx); ("bit", bit); ("tmask", tm); ("fmask", fm);
    ("d0.x", d0x); ("d0.y", d0y); ("d0.z", d0z); ("d0.t", d0t); ("d1.x", d1x); ("d1.y", d1y); ("d1.z", d1z); ("d1.t", d1t)])%list.
Ltac up C := apply (calls_weaken _ _ _ 10) in C; [rewrite <- from_calls in C|lia].
Ltac one := cbn [exec eval_args eval bind get lookup String.eqb Ascii.eqb Bool.eqb fst snd write_back bind_rets upd].
Ltac nxt := rewrite exec_cons; one.
Lemma word_iteration en R0 R1 j : prepared en R0 R1 -> produced_point C R0 -> produced_point C R1 -> 0 <= j < nb ->
  exists en' (S D : ext) (b : bool), (forall i, exec_list (fst i) (FROM 10 i) ladder_body (upd "i" (VInt j) en) = Ok en') /\
    runs F "F::bit_normalized" [VArr n; VInt (nb - 1 - j)] [VInt (if b then 1 else 0)] [VArr n; VInt (nb - 1 - j)] /\
    curve_sum C R0 R1 S /\ curve_double C (if b then R0 else R1) D /\ produced_point C S /\ produced_point C D /\
    (if b then prepared en' D S else prepared en' S D).
Proof.
  intros EN H0 H1 Hj.
  destruct (k_nbits _ _ _ _ _ _ _ _ _ _ KL) as (_ & NB). fold F nb in NB.
  set (b := read_bit F n (nb - 1 - j)).
  assert (RB : runsd 1 F "F::bit_normalized" [VArr n; VInt (nb - 1 - j)] [VInt (if b then 1 else 0)] [VArr n; VInt (nb - 1 - j)]).
  { apply read_bit_runs; [exact HF|apply HN|]. pose proof (bits_enough F HF). unfold nb in *. lia. }
  assert (CB : CL 8 "F::bit_normalized" [VArr n; VInt (nb - 1 - j)] ([VInt (if b then 1 else 0)], [VArr n; VInt (nb - 1 - j)])).
  { rewrite <- from_calls. apply (Curves.up C HC 1); [lia|hs|exact RB]. }
  destruct (k_filled _ _ _ _ _ _ _ _ _ _ KL b) as (? & CT). rewrite from_calls in CT.
  destruct (k_filled _ _ _ _ _ _ _ _ _ _ KL (negb b)) as (? & CF). rewrite from_calls in CF.
  destruct (add_words R0 R1 H0 H1) as (S & CS & HS & CA).
  destruct (point_select b R0 R1 H0 H1) as (xa & ya & za & ta & xb & yb & zb & tb & C1 & C2 & C3). cbv zeta in C3.
  destruct (double_words (if b then R0 else R1) ltac:(destruct b; assumption)) as (D & CDD & HD & CD).
  destruct (point_select (negb b) S D HS HD) as (xa' & ya' & za' & ta' & xb' & yb' & zb' & tb' & C1' & C2' & C3'). rewrite negb_involutive in C2'. cbv zeta in C3'.
  destruct (point_select b S D HS HD) as (xa2 & ya2 & za2 & ta2 & xb2 & yb2 & zb2 & tb2 & C12 & C22 & C32). cbv zeta in C32.
  up CB. up CT. up CF. up CA. up C1. up C2. up C3. up CD. up C1'. up C2'. up C3'. up C12. up C22. up C32.
  exists ((env0' (if negb b then S else D) (if b then S else D) ++ [("i", VInt j); ("idx", VInt (nb - 1 - j)); ("bit", VInt (if b then 1 else 0)); ("tmask", mask b); ("fmask", mask (negb b));
    ("d0.x", xb'); ("d0.y", yb'); ("d0.z", zb'); ("d0.t", tb'); ("d1.x", xb2); ("d1.y", yb2); ("d1.z", zb2); ("d1.t", tb2)])%list), S, D, b.
  split; [|split; [eapply runsd_runs; [|exact RB]; lia|split; [exact CS|split; [exact CDD|split; [exact HS|split; [exact HD|]]]]]].
  2:{ clearbody b. destruct b; cbn [negb]; right; do 13 eexists; reflexivity. }
  intros i.
  assert (U1 : uarith (fst i) (nb - 1) = Ok (nb - 1)).
  { unfold uarith. replace (0 <=? nb - 1) with true by (symmetry; apply Z.leb_le; lia). replace (nb - 1 <? 2 ^ 64) with true by (symmetry; apply Z.ltb_lt; lia). reflexivity. }
  assert (U2 : uarith (fst i) (nb - 1 - j) = Ok (nb - 1 - j)).
  { unfold uarith. replace (0 <=? nb - 1 - j) with true by (symmetry; apply Z.leb_le; lia). replace (nb - 1 - j <? 2 ^ 64) with true by (symmetry; apply Z.ltb_lt; lia). reflexivity. }
  assert (NOT : (if (if b then 1 else 0) =? 0 then 1 else 0) = (if negb b then 1 else 0)) by (destruct b; reflexivity).
  unfold ladder_body. cbn [nth_error f_body f_P_scalar_mult_normalized]. clearbody b nb.
  destruct EN as [->|(? & ? & ? & ? & ? & ? & ? & ? & ? & ? & ? & ? & ? & ->)]; unfold env0', env0; cbn [app];
  (do 1 nxt; unfold as_int; one; rewrite U1; one; rewrite U2; one;
   nxt; rewrite CB; one; nxt; rewrite CT; one; nxt; unfold as_int; one; rewrite NOT, CF; one; do 8 nxt;
   nxt; rewrite CA; one; do 4 nxt;
   nxt; rewrite C1; one; nxt; rewrite C2; one; nxt; rewrite C3; one; nxt; rewrite CD; one; do 4 nxt;
   nxt; rewrite C1'; one; nxt; rewrite C2'; one; nxt; rewrite C3'; one;
   nxt; rewrite C12; one; nxt; rewrite C22; one; nxt; rewrite C32; one; reflexivity).
Qed.
Lemma word_iterations k : forall j en R0 R1, prepared en R0 R1 -> produced_point C R0 -> produced_point C R1 -> 0 <= j -> j + Z.of_nat k = nb ->
  exists en' R R', (forall i, (fix loop (n : nat) (j : Z) (en : env) : res env :=
      match n with O => Ok en | S k => bind (exec_list (fst i) (FROM 10 i) ladder_body (upd "i" (VInt j) en)) (loop k (j + 1)) end) k j en = Ok en') /\
    prepared en' R R' /\ produced_point C R /\ ladder_steps C n k R0 R1 R.
Proof.
  induction k as [|k IH]; intros j en R0 R1 EN H0 H1 J1 J2; [exists en, R0, R1; split; [reflexivity|]; split; [exact EN|]; split; [exact H0|constructor]|].
  destruct (word_iteration en R0 R1 j EN H0 H1 ltac:(lia)) as (en1 & S & D & b & E1 & RB & CS & CD & HS & HD & EN1).
  replace (nb - 1 - j) with (Z.of_nat k) in RB by lia.
  destruct b.
  - destruct (IH (j + 1) en1 D S EN1 HD HS ltac:(lia) ltac:(lia)) as (en2 & R & R' & E2 & EN2 & HR & ST). exists en2, R, R'.
    split; [intros i; rewrite E1; cbn [bind]; apply E2|]. split; [exact EN2|]. split; [exact HR|]. eapply ladder_one; eauto.
  - destruct (IH (j + 1) en1 S D EN1 HS HD ltac:(lia) ltac:(lia)) as (en2 & R & R' & E2 & EN2 & HR & ST). exists en2, R, R'.
    split; [intros i; rewrite E1; cbn [bind]; apply E2|]. split; [exact EN2|]. split; [exact HR|]. eapply ladder_zero; eauto.
Qed.
End Run.
Ltac fin := cbn [exec_list exec eval_args eval bind get lookup String.eqb Ascii.eqb Bool.eqb evals gets fst snd write_back bind_rets upd].
Ltac one := cbn [exec eval_args eval bind get lookup String.eqb Ascii.eqb Bool.eqb fst snd write_back bind_rets upd].
Lemma word_ladder P n : produced_point C P -> produced F n ->
  exists Z0 R, point_runs C "P::zero" [] (coords Z0) [] /\ produced_point C R /\ ladder_steps C n (Z.to_nat nb) Z0 P R /\
    CL 11 "P::scalar_mult_normalized" (coords P ++ [VArr n]) ([], coords R ++ [VArr n]).
Proof.
  intros HP HN.
  destruct (zero_call _ _ _ _ _ _ _ _ _ _ _ _ (has_ed C HC) KL) as (zx & zy & zz & zt & CZ & Z1 & Z2 & Z3 & Z4 & _).
  pose proof (point_join C _ _ _ _ Z1 Z2 Z3 Z4) as HZ. pose proof (deep16 C _ _ _ _ _ CZ ltac:(lia)) as RZ.
  destruct (k_nbits _ _ _ _ _ _ _ _ _ _ KL) as (CN & NB). fold F nb in NB. rewrite from_calls in CN. change (nbits (cv_fld C)) with nb in CN. fold T in CN. fold T in CZ.
  apply (calls_weaken _ _ _ 10) in CZ; [rewrite <- from_calls in CZ|lia].
  apply (calls_weaken _ _ _ 10) in CN; [rewrite <- from_calls in CN|lia].
  set (Z0 := Ext zx zy zz zt) in *.
  destruct (word_iterations P n Z0 HN (Z.to_nat (nb - 0)) 0 (env0' P n Z0 Z0 P) Z0 P (or_introl eq_refl) HZ HP ltac:(lia) ltac:(lia)) as (en' & R & R' & EL & EN & HR & ST).
  rewrite Z.sub_0_r in ST. exists Z0, R. split; [exact RZ|]. split; [exact HR|]. split; [exact ST|].
  unfold coords. cbn [app].
  apply (enter _ _ (has_ed C HC) 10 _ f_P_scalar_mult_normalized); [reflexivity|]. intros i. specialize (EL i).
  unfold run_func, f_P_scalar_mult_normalized. cbn [f_params f_body f_rets List.length Nat.eqb combine].
  rewrite exec_cons. one. rewrite CZ. one. do 8 (rewrite exec_cons; one). rewrite exec_cons. one. rewrite CN. one.
  rewrite exec_cons, (exec_for _ _ _ _ _ _ _ 0 nb) by reflexivity.
  unfold ladder_body in EL. cbn [nth_error f_body f_P_scalar_mult_normalized] in EL. unfold env0' in EL at 1. unfold env0 in EL at 1. cbn [eX eY eZ eT Z0] in EL. unfold T in EL. rewrite EL. cbn [bind].
  destruct EN as [->|(? & ? & ? & ? & ? & ? & ? & ? & ? & ? & ? & ? & ? & ->)]; unfold env0', env0; cbn [app]; fin; reflexivity.
Qed.
Lemma ladder_steps_claim P n : produced_point C P -> produced F n ->
  exists Z0 R, point_runs C "P::zero" [] (coords Z0) [] /\ ladder_steps C n (Z.to_nat (nbits F)) Z0 P R /\ produced_point C R /\
    point_runs C "P::scalar_mult_normalized" (coords P ++ [VArr n]) [] (coords R ++ [VArr n]).
Proof.
  intros HP HN. destruct (word_ladder P n HP HN) as (Z0 & R & RZ & HR & ST & K). exists Z0, R. split; [exact RZ|]. split; [exact ST|]. split; [exact HR|].
  eapply deep16; [exact K|lia].
Qed.
Lemma scalar_steps_claim P n : produced_point C P -> produced F n ->
  exists n' Z0 R, runs F "F::normalize" [VArr n] [] [VArr n'] /\ point_runs C "P::zero" [] (coords Z0) [] /\
    ladder_steps C n' (Z.to_nat (nbits F)) Z0 P R /\ produced_point C R /\
    point_runs C "P::scalar_mult" (coords P ++ [VArr n]) [] (coords R ++ [VArr n']).
Proof.
  intros HP HN. destruct (norm_any F n HF (produced_any F n HF HN)) as (o & RN & HO).
  destruct (word_ladder P o HP HO) as (Z0 & R & RZ & HR & ST & K). exists o, Z0, R.
  split; [eapply runsd_runs; [|exact RN]; lia|]. split; [exact RZ|]. split; [exact ST|]. split; [exact HR|].
  assert (CN : CL 8 "F::normalize" [VArr n] ([], [VArr o])) by (rewrite <- from_calls; apply (Curves.up C HC 4); [lia|hs|exact RN]).
  apply (calls_weaken _ _ _ 11) in CN; [rewrite <- from_calls in CN|lia]. rewrite <- from_calls in K. unfold coords in *. cbn [app] in *.
  eapply (deep16 C 12); [|lia]. apply (enter _ _ (has_ed C HC) 11 _ f_P_scalar_mult); [reflexivity|].
  intros i. unfold run_func, f_P_scalar_mult. cbn [f_params f_body f_rets List.length Nat.eqb combine]. fin. unfold T in CN, K. rewrite CN. fin. rewrite K. fin. reflexivity.
Qed.
End Shipped.

(** the steps determine the result *)
Lemma run_det C f args r o r' o' : point_runs C f args r o -> point_runs C f args r' o' -> r = r' /\ o = o'.
Proof. intros A B. specialize (A Debug). specialize (B Debug). rewrite A in B. injection B as <- <-. auto. Qed.
Lemma coords_eq P Q : coords P = coords Q -> P = Q.
Proof. destruct P as [a b c d], Q as [a2 b2 c2 d2]. unfold coords. cbn [eX eY eZ eT]. intros E. congruence. Qed.
Lemma sum_det C P Q R R' : curve_sum C P Q R -> curve_sum C P Q R' -> R = R'.
Proof. intros (_ & _ & A & _) (_ & _ & B & _). apply coords_eq. exact (proj1 (run_det _ _ _ _ _ _ _ A B)). Qed.
Lemma double_det C P R R' : curve_double C P R -> curve_double C P R' -> R = R'.
Proof. intros (_ & A) (_ & B). apply coords_eq. exact (proj1 (run_det _ _ _ _ _ _ _ A B)). Qed.
Lemma steps_det C n k : forall R0 R1 R R', ladder_steps C n k R0 R1 R -> ladder_steps C n k R0 R1 R' -> R = R'.
Proof.
  induction k as [|k IH]; intros R0 R1 R R' A B; inversion A; inversion B; subst; auto;
    try (match goal with X : runs _ _ _ [VInt 1] _, Y : runs _ _ _ [VInt 0] _ |- _ => specialize (X Debug); specialize (Y Debug); rewrite X in Y; discriminate Y end).
  all: match goal with X : curve_sum ?c ?a ?b ?u, Y : curve_sum ?c ?a ?b ?w |- _ => assert (u = w) by (eapply sum_det; eassumption); subst end.
  all: match goal with X : curve_double ?c ?a ?u, Y : curve_double ?c ?a ?w |- _ => assert (u = w) by (eapply double_det; eassumption); subst end.
  all: eapply IH; eassumption.
Qed.
