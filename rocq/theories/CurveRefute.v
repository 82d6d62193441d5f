(** The shipped curves' point operations are wrong (C38), and their d (C39). *)
From Coq Require Import ZArith Znumtheory List String Lia Bool.
From Verif Require Import Lang Quick Fields Kfacts Ops Arith Refute NumTheory Primality Primes Roots Zp EdwardsSpec EdwardsAlg CurveSpec Curves.
Import ListNotations.
Local Open Scope string_scope.
Local Open Scope Z_scope.
Local Open Scope list_scope.

(** ** Points of each curve whose double and whose sum come out wrong *)
Definition words (F : fld) (z : Z) : list Z := map (fun i => Z.land (Z.shiftr z (fl_w F * Z.of_nat i)) (Z.ones (fl_w F))) (seq 0 (fl_n F)).
(* reduction modulo p: first by folding, which is cheap when p is just below a power of 2 *)
Definition small_mod (p x : Z) : Z :=
  let b := Z.log2 p + 1 in let f := foldred (Z.to_nat b) (2 ^ b - p) in f (f (f x)) mod p.
Lemma small_mod_ok p x : small_mod p x = x mod p.
Proof.
  unfold small_mod. cbv zeta. set (b := Z.log2 p + 1). assert (B : 0 <= b) by (unfold b; pose proof (Z.log2_nonneg p); lia).
  assert (K : forall y, cong p (foldred (Z.to_nat b) (2 ^ b - p) y) y).
  { intros y. pose proof (foldred_ok (Z.to_nat b) (2 ^ b - p) y) as E. rewrite Z2Nat.id in E by exact B.
    replace (2 ^ b - (2 ^ b - p)) with p in E by ring. exact E. }
  set (f := foldred _ _) in *. assert (E : cong p (f (f (f x))) x) by now rewrite !K.
  destruct E as [k E]. replace (f (f (f x))) with (x + k * p) by lia. destruct (Z.eq_dec p 0) as [->|N]; [f_equal; ring|]. now apply Z_mod_plus_full.
Qed.
Definition stored (C : crv) (A : affine) : ext :=
  let v z := VArr (words (cv_fld C) z) in Ext (v (fst A)) (v (snd A)) (v 1) (v (small_mod (cv_p C) (fst A * snd A))).
Definition eqpb (p a b : Z) : bool := small_mod p a =? small_mod p b.
Lemma eqpb_mod p a b : eqpb p a b = (a mod p =? b mod p). Proof. unfold eqpb. now rewrite !small_mod_ok. Qed.
Lemma eqpb_yes p a b : eqpb p a b = true -> eqp p a b. Proof. rewrite eqpb_mod. apply Z.eqb_eq. Qed.
Lemma eqpb_no p a b : eqpb p a b = false -> ~ eqp p a b. Proof. rewrite eqpb_mod. apply Z.eqb_neq. Qed.
Definition curveb (p d : Z) (A : affine) : bool := let (x, y) := A in eqpb p (x * x + y * y) (1 + d * x * x * y * y).
Definition sumb (p d : Z) (P Q R : affine) : bool :=
  let (x1, y1) := P in let (x2, y2) := Q in let (x3, y3) := R in
  negb (eqpb p (1 + d * x1 * x2 * y1 * y2) 0) && negb (eqpb p (1 - d * x1 * x2 * y1 * y2) 0) &&
  eqpb p (x3 * (1 + d * x1 * x2 * y1 * y2)) (x1 * y2 + y1 * x2) && eqpb p (y3 * (1 - d * x1 * x2 * y1 * y2)) (y1 * y2 - x1 * x2).
Definition reprb (C : crv) (P : ext) (A : affine) : bool :=
  let X := coordinate C (eX P) in let Y := coordinate C (eY P) in let Z := coordinate C (eZ P) in let T := coordinate C (eT P) in
  negb (eqpb (cv_p C) Z 0) && eqpb (cv_p C) (fst A * Z) X && eqpb (cv_p C) (snd A * Z) Y && eqpb (cv_p C) (T * Z) (X * Y).
Definition storedb (C : crv) (A : affine) : bool :=
  let c z := canonicalb (cv_fld C) (words (cv_fld C) z) in
  c (fst A) && c (snd A) && c 1 && c (small_mod (cv_p C) (fst A * snd A)) && reprb C (stored C A) A && curveb (cv_p C) (cv_d C) A.
Lemma reprb_yes C P A : reprb C P A = true -> represents C P A.
Proof.
  unfold reprb. rewrite !andb_true_iff, negb_true_iff. intros (((H1 & H2) & H3) & H4).
  split; [now apply eqpb_no|split; [now apply eqpb_yes|split; now apply eqpb_yes]].
Qed.
Lemma reprb_no C P A : represents C P A -> reprb C P A = true.
Proof.
  unfold represents, stands_for, denotes, reprb, eqp. rewrite !eqpb_mod. intros (H1 & H2 & H3 & H4). apply Z.eqb_eq in H2, H3, H4. apply Z.eqb_neq in H1.
  rewrite H1, H2, H3, H4. reflexivity.
Qed.
Lemma sumb_yes p d P Q R : sumb p d P Q R = true -> edwards_sum p d P Q R.
Proof.
  destruct P as [x1 y1], Q as [x2 y2], R as [x3 y3]. unfold sumb, edwards_sum. rewrite !andb_true_iff, !negb_true_iff.
  intros (((H1 & H2) & H3) & H4). split; [now apply eqpb_no|split; [now apply eqpb_no|split; now apply eqpb_yes]].
Qed.
Lemma storedb_yes C A : storedb C A = true -> canonical_point C (stored C A) /\ represents C (stored C A) A /\ on_curve (cv_p C) (cv_d C) A.
Proof.
  unfold storedb. rewrite !andb_true_iff. intros (((((H1 & H2) & H3) & H4) & H5) & H6). split; [|split; [now apply reprb_yes|]].
  - exists (words (cv_fld C) (fst A)), (words (cv_fld C) (snd A)), (words (cv_fld C) 1), (words (cv_fld C) (small_mod (cv_p C) (fst A * snd A))).
    split; [reflexivity|]. split; [|split; [|split]]; now apply canonicalb_ok.
  - destruct A as [x y]. now apply eqpb_yes.
Qed.
Definition wrong (C : crv) (r : res (list val * list val)) (Q3 : affine) : bool :=
  match r with Ok (_, X :: Y :: Z :: T :: _) => negb (reprb C (Ext X Y Z T) Q3) | _ => false end.
Definition double_wrong (C : crv) (w : affine * affine) : bool :=
  let (A, Q3) := w in storedb C A && sumb (cv_p C) (cv_d C) A A Q3 && wrong C (quick_call Debug (cv_tbl C) "P::double" (coords (stored C A))) Q3.
Definition add_wrong (C : crv) (w : affine * affine * affine) : bool :=
  let '(A, B, Q3) := w in storedb C A && storedb C B && sumb (cv_p C) (cv_d C) A B Q3 &&
    wrong C (quick_call Debug (cv_tbl C) "P::add_assign(&P)" (coords (stored C A) ++ coords (stored C B))) Q3.
Lemma double_wrong_ok C w : double_wrong C w = true -> ~ doubling_is_right C.
Proof.
  destruct w as [A Q3]. unfold double_wrong. rewrite !andb_true_iff. intros ((H1 & H2) & H3) R.
  apply storedb_yes in H1 as (C1 & R1 & O1). apply sumb_yes in H2. destruct (R _ _ _ C1 R1 O1 H2) as (P & (E & _) & RP).
  rewrite quick_call_ok, (E Debug) in H3. destruct P as [X Y Z T]. unfold wrong, coords in H3. cbn [eX eY eZ eT] in H3. rewrite (reprb_no _ _ _ RP) in H3. discriminate H3.
Qed.
Lemma add_wrong_ok C w : add_wrong C w = true -> ~ addition_is_right C.
Proof.
  destruct w as [[A B] Q3]. unfold add_wrong. rewrite !andb_true_iff. intros (((H1 & H1') & H2) & H3) R.
  apply storedb_yes in H1 as (C1 & R1 & O1). apply storedb_yes in H1' as (C2 & R2 & O2). apply sumb_yes in H2.
  destruct (R _ _ _ _ _ C1 C2 R1 R2 O1 O2 H2) as (P & (E & _) & RP).
  rewrite quick_call_ok, (E Debug) in H3. destruct P as [X Y Z T]. unfold wrong, coords in H3. cbn [eX eY eZ eT app] in H3. rewrite (reprb_no _ _ _ RP) in H3. discriminate H3.
Qed.
Definition witnesses : list (crv * (affine * affine) * (affine * affine * affine)) := [
  (E_222,
   ((3, 2208305444344989162109437133128121052160802817496428287938488742343),
    (4171651301871334859883923427060871114256008315119094022381705952076, 3783184268648519134509569326878747849910439465538716370371466308771)),
   ((3, 2208305444344989162109437133128121052160802817496428287938488742343),
    (4, 5824844541039376651968436975606858879648160855606717407855823754103),
    (5976994440175527295869185443938650264692138496701938739033565671602, 6676078424392981092347051062232286773290206613626903756127402506342)));
  (Curve1174,
   ((2, 133568862762174881081627707066285845410000316945849919862872231033727474526),
    (533869608114131600004246057991112562139196464413290520186101694872266736618, 1414109810925854665386092784920018574371408941150106717950728534331544782831)),
   ((2, 133568862762174881081627707066285845410000316945849919862872231033727474526),
    (4, 2985033516233672982198324173977920779669516707203497032688628555285763674639),
    (635616559639264326510035321984407460951596350717225547183129472006814251278, 74883576794611850499960866142397101505195452703767710669960064192398199653)));
  (E_382,
   ((13, 9341364608633567444616592965958358014970559678492104202985057252686395370314909851807312642958080222177910049496602),
    (9378084595886115250956748404961205690494335029143213980536216359327319537232215542345087123682445934562501775121829, 3139522886314701435875250995774378569797114275065321791703944849439535052122468004233159763326953795806028642223388)),
   ((7, 4673365841898611514615017649193822062725583621619951816126004011895442520672788349424866323969892863701968798358350),
    (10, 1974524269292422195883132550482658486746452169077363080950167561127093971143609769698597259291517437133939899419890),
    (5761483751745487561773013636158131717886163900386455910037279207065212771295762828730872919908835154311687601318457, 7939343850282777545169965417636826065986081854696225357160655897175208237841014414547957255119566465383360193432900)));
  (Curve41417,
   ((3, 22465142279713875055197228296198856470332726503155274267833224414380842985920301638497082366189646766447505771827571494169948),
    (10299898740388489448143589343583988395944479461064677022892463769410819821721495036225338587764625576975977702792077957950548, 11739893559484622780207136289152697202760759700378438437805620733827054343899575626799147354170503269620246459420383932676507)),
   ((3, 22465142279713875055197228296198856470332726503155274267833224414380842985920301638497082366189646766447505771827571494169948),
    (5, 37206121225393492126645502829481983276730485008642174454554204895421008917949433468199596259793335091745274628278332067302056),
    (16457298954525173549565266310866623714709878365544613308298095415433057258915318358924631479562907089406519357255633959687835, 27866507137499414238269106730357558061976095666262686266423138099695491865517579676487802471047861722476050301713870424519412)));
  (E_521,
   ((4, 3032432114286052459734493346589116727620774438186426554571035049389122174539777808394925429974663047808802579026830290200483205984431081241005173227620421363),
    (5377605673964871496765974092767746049225551083840792277354582036619311805953865409569672634436794183215795974480410184436904891239681832003787018969886312951, 6182935754362071012352719525259614937237673023770727843544792827565026713531028421927846254119766235803901838311062589152803952092227098708714042880771649657)),
   ((4, 3032432114286052459734493346589116727620774438186426554571035049389122174539777808394925429974663047808802579026830290200483205984431081241005173227620421363),
    (6, 5714513561035507691515117595705606307387141111335797146432126383917692124285036183394611340825963750784799654442187219658327944045263222236549950526724711964),
    (537837686968366334476433525141597515110350507146670787363115278594112781112772964615830584906249340611271671604284350385876585645982073737238505408906481260, 3884902311671720909783319599707185421371588513214019426128961496640158598403467946302391224724412213106041391013853582358729007469402455852498163069634048502)))].
Lemma witnesses_checked : forallb (fun w => let '(C, dw, aw) := w in double_wrong C dw && add_wrong C aw) witnesses = true.
Proof. vm_compute. reflexivity. Qed.
Lemma witnesses_cover C : In C all_curves -> exists dw aw, In (C, dw, aw) witnesses.
Proof. intros H. repeat (destruct H as [<-|H]; [do 2 eexists; cbn [In witnesses]; eauto 10|]). destruct H. Qed.
Lemma curve_ops_wrong C : In C all_curves -> ~ doubling_is_right C /\ ~ addition_is_right C.
Proof.
  intros H. destruct (witnesses_cover C H) as (dw & aw & I). pose proof (proj1 (forallb_forall _ _) witnesses_checked _ I) as K. cbn beta iota in K.
  apply andb_true_iff in K as [K1 K2]. split; [eapply double_wrong_ok; exact K1|eapply add_wrong_ok; exact K2].
Qed.

(** ** d (C39) *)
(** when p is 3 modulo 4, x is no square if -x is one *)
Lemma minus_square p x s : prime p -> p mod 4 = 3 -> ~ (p | x) -> cong p (s * s) (- x) -> ~ sq_mod p x.
Proof.
  intros P M N S Q. pose proof (prime_ge_2 p P). assert (O : p mod 2 = 1) by (pose proof (Z.div_mod p 4); pose proof (Z.div_mod p 2); pose proof (Z.mod_pos_bound p 2); lia).
  assert (N' : ~ (p | - x)) by (intros D; apply N; apply Z.divide_opp_r in D; now rewrite Z.opp_involutive in D).
  pose proof (euler_square p x P O N Q) as E1. pose proof (euler_square p (- x) P O N' (ex_intro _ s S)) as E2.
  apply (one_not_minus_one p); [destruct (Z.eq_dec p 2) as [->|]; [discriminate M|lia]|].
  assert (K : (p - 1) / 2 = 2 * (p / 4) + 1).
  { pose proof (Z.div_mod p 4 ltac:(lia)). assert (p - 1 = (2 * (p / 4) + 1) * 2) as -> by lia. apply Z.div_mul. lia. }
  assert (PN : 0 <= p / 4) by (apply Z.div_pos; lia).
  replace (- x) with (-1 * x) in E2 by ring. rewrite Z.pow_mul_l, E1 in E2. rewrite K, Z.pow_add_r, Z.pow_mul_r in E2 by lia.
  change ((-1) ^ 2) with 1 in E2. rewrite Z.pow_1_l in E2 by lia. now symmetry.
Qed.
Definition minus_d_roots : list (crv * Z) := [
  (E_222, 4499413759139550117630332869928422837820737264368837554445554196046);
  (Curve1174, 2585867875237599640714315516589772065693102672760691067724258276918051976159);
  (E_382, 3683501210801641538070396964110481994413708224936243074629376318573616862612596958733971757066093943440875768127188);
  (Curve41417, 10880338661384454300148879619259713294388586760571274155662056982728213633541950701276654758012361273760861502286178754514675);
  (E_521, 2795021995875513955519605025662024379260272906311014309904718681433369463484204807329592440320312159660091379537354805639195045893128614643196822573674959118)].
Definition d_okb (Cr : crv * Z) : bool :=
  let (C, r) := Cr in
  canonicalb (cv_fld C) (d_words C) && eqpb (cv_p C) (value (cv_fld C) (d_words C)) (cv_d C) && (1 <? cv_p C) && (cv_p C mod 4 =? 3) && negb (eqpb (cv_p C) (cv_d C) 0) &&
  eqpb (cv_p C) (r * r) (- cv_d C).
Lemma d_okb_checked : forallb d_okb minus_d_roots = true. Proof. vm_compute. reflexivity. Qed.
Lemma d_right C : In C all_curves -> exists l, point_runs C "C::d_val" [] [VArr l] [] /\ canonical (cv_fld C) l /\
  eqp (cv_p C) (value (cv_fld C) l) (cv_d C) /\ non_square (cv_p C) (cv_d C) /\ ~ eqp (cv_p C) (cv_d C) 0.
Proof.
  intros H. assert (I : exists r, In (C, r) minus_d_roots) by (repeat (destruct H as [<-|H]; [eexists; cbn [In minus_d_roots]; eauto 10|]); destruct H).
  destruct I as (r & I). pose proof (proj1 (forallb_forall _ _) d_okb_checked _ I) as K. unfold d_okb in K. rewrite !andb_true_iff, !negb_true_iff in K.
  destruct K as (((((K1 & K2) & K3) & K4) & K5) & K6). apply Z.ltb_lt in K3. apply Z.eqb_eq in K4. apply eqpb_no in K5. apply eqpb_yes in K2, K6.
  exists (d_words C). split; [|split; [now apply canonicalb_ok|split; [exact K2|split; [|exact K5]]]].
  - intros md. unfold rust_call. cbn [call]. rewrite (curve_table C H). reflexivity.
  - pose proof (prime_modulus (cv_fld C) (curve_field C H)) as PR. fold (cv_p C) in PR. rewrite (eqc _ PR) in K5, K6.
    intros x E. rewrite (eqc _ PR) in E. refine (minus_square _ _ r PR K4 _ K6 (ex_intro _ x E)). intros D. apply K5. unfold cong. now rewrite Z.sub_0_r.
Qed.
Lemma curve_complete C : In C all_curves -> forall A B, on_curve (cv_p C) (cv_d C) A -> on_curve (cv_p C) (cv_d C) B ->
  exists S, edwards_sum (cv_p C) (cv_d C) A B S /\ on_curve (cv_p C) (cv_d C) S.
Proof.
  intros H A B OA OB. destruct (d_right C H) as (_ & _ & _ & _ & N & _). pose proof (prime_modulus (cv_fld C) (curve_field C H)) as PR. fold (cv_p C) in PR.
  destruct (complete _ PR _ A B N OA OB) as (S & E). exists S. split; auto. exact (sum_on_curve _ PR _ A B S OA OB E).
Qed.
