(** Small products of values of any top word.  The product of the upper half of
    the top word (of the whole of it, where it is not split) by the multiplier may
    overflow, so that one statement is taken out as well as the top column, and
    both are worked out by hand in wrapping arithmetic; the rest is run by the
    checker of Kmore.v. *)
From Coq Require Import ZArith List String Lia Bool.
From Verif Require Import Lang Poly Kernel Kmore Fields Kfacts Ops Normalize Methods Arith Exact Cuts SmallMul.
Import ListNotations.
Local Open Scope string_scope.
Local Open Scope Z_scope.

(** ** Inserting a statement that the next ones do not look at *)
Fixpoint avoids (m : string) (e : expr) : bool :=
  match e with
  | EInt _ | ELit _ => true
  | EVar x => negb (String.eqb x m)
  | EIdx a b | EAdd a b | ESub a b | EMul a b | EAnd a b | EOr a b | EShl a b | EShr a b | EEq a b | EUSub a b | EUDiv a b | EURem a b => avoids m a && avoids m b
  | ENot a | ECast _ a | ERep a _ => avoids m a
  end.
Definition agree (m : string) (en en' : env) : Prop := forall x, x <> m -> lookup x en' = lookup x en.
Lemma eval_avoids md m en en' : agree m en en' -> forall e, avoids m e = true -> eval md e en' = eval md e en.
Proof.
  intros A. induction e; cbn [avoids]; intros H; cbn [eval];
    repeat match goal with H : _ && _ = true |- _ => apply andb_true_iff in H as [? ?] end;
    rewrite ?IHe, ?IHe1, ?IHe2 by assumption; try reflexivity.
  unfold get. apply negb_true_iff, String.eqb_neq in H. now rewrite A.
Qed.
Definition lets (m : string) (l : list stmt) : bool :=
  forallb (fun s => match s with SLet x e => negb (String.eqb x m) && avoids m e | _ => false end) l.
Lemma insert_let md cl m l : lets m l = true -> forall en en1 en', agree m en en1 -> exec_list md cl l en = Ok en' ->
  exists en1', exec_list md cl l en1 = Ok en1' /\ agree m en' en1' /\ lookup m en1' = lookup m en1.
Proof.
  induction l as [|s l IH]; intros H en en1 en' A X.
  - injection X as <-. exists en1. cbn. auto.
  - cbn [lets forallb] in H. apply andb_true_iff in H as [Hs H]. destruct s as [x e| | | | | |]; try discriminate. apply andb_true_iff in Hs as [Hx He].
    apply negb_true_iff, String.eqb_neq in Hx. cbn [exec_list exec] in X |- *. rewrite (eval_avoids md m en en1 A e He).
    destruct (eval md e en) as [v| |]; cbn [bind] in X |- *; try discriminate.
    destruct (IH H (upd x v en) (upd x v en1) en') as (en1' & X1 & A1 & L1); [|exact X|].
    + intros y Hy. destruct (String.eqb_spec y x) as [->|N]; [now rewrite !lookup_upd_eq|rewrite !lookup_upd_ne by exact N; now apply A].
    + exists en1'. split; [exact X1|]. split; [exact A1|]. rewrite L1. apply lookup_upd_ne. now apply not_eq_sym.
Qed.
Lemma lets_frame md cl m y l : lets m l = true -> existsb (fun s => String.eqb y (target s)) l = false -> forall en en', exec_list md cl l en = Ok en' -> lookup y en' = lookup y en.
Proof.
  induction l as [|s l IH]; intros H T en en' X.
  - injection X as <-. reflexivity.
  - cbn [lets forallb] in H. apply andb_true_iff in H as [Hs H]. destruct s as [x e| | | | | |]; try discriminate.
    cbn [existsb target] in T. apply orb_false_iff in T as [Tx T]. apply String.eqb_neq in Tx. cbn [exec_list exec] in X.
    destruct (eval md e en) as [v| |]; cbn [bind] in X; try discriminate. rewrite (IH H T _ _ X). now apply lookup_upd_ne.
Qed.

(** ** The pieces of the function *)
(** whether the top word is split into halves *)
Definition split (F : fld) : bool := 28 <? fl_tb F.
Record any_names := mkan { an_ds : list string; an_top : string; an_x : string; an_y : string; an_m : string; an_a : string; an_c : string }.
Definition anames (F : fld) : any_names :=
  match fl_n F, split F with
  | 4%nat, _ => mkan ["d0"; "d1"; "d2"] "d3" "m5" "m6" "m7" "a7" "c2"
  | 5%nat, true => mkan ["d0"; "d1"; "d2"; "d3"] "d4" "m7" "m8" "m9" "a9" "c3"
  | 5%nat, false => mkan ["d0"; "d1"; "d2"; "d3"] "d4" "m7" "m7" "m8" "a8" "c3"
  | 7%nat, _ => mkan ["d0"; "d1"; "d2"; "d3"; "d4"; "d5"] "d6" "m11" "m12" "m13" "a13" "c5"
  | 8%nat, _ => mkan ["d0"; "d1"; "d2"; "d3"; "d4"; "d5"; "d6"] "d7" "m13" "m13" "m14" "a14" "c6"
  | _, true => mkan ["d0"; "d1"; "d2"; "d3"; "d4"; "d5"; "d6"; "d7"; "d8"] "d9" "m17" "m18" "m19" "a19" "c8"
  | _, false => mkan ["d0"; "d1"; "d2"; "d3"; "d4"; "d5"; "d6"; "d7"; "d8"] "d9" "m17" "m17" "m18" "a18" "c8"
  end.
Definition any_expr (F : fld) : expr :=
  let s := anames F in
  if split F then EAdd (EAdd (EAdd (EShr (EVar (an_x s)) (EInt (half F))) (EVar (an_y s))) (EShl (EVar (an_m s)) (EInt (half F)))) (EVar (an_c s))
  else EAdd (EAdd (EShr (EVar (an_x s)) (EInt (half F))) (EVar (an_m s))) (EVar (an_c s)).
Definition any_tail (F : fld) : list stmt :=
  let s := anames F in
  (SLet (an_top s) (any_expr F) :: stores 0 (2 ^ fl_w F - 1) (an_ds s) ++ [SSet "self" (EInt (Z.of_nat (fl_n F - 1))) (EVar (an_top s))])%list.
Fixpoint before (m : string) (l : list stmt) : list stmt := match l with [] => [] | s :: t => if String.eqb (target s) m then [] else s :: before m t end.
Fixpoint after (m : string) (l : list stmt) : list stmt := match l with [] => [] | s :: t => if String.eqb (target s) m then t else after m t end.
Definition part1 (F : fld) : list stmt := before (an_m (anames F)) (f_body (pre F)).
Definition part2 (F : fld) : list stmt := after (an_m (anames F)) (f_body (pre F)).
Definition the_m (F : fld) : stmt := SLet (an_m (anames F)) (EMul (EVar (an_a (anames F))) (EVar "b")).
Definition rest (F : fld) : func := mkfunc ["self"; "rhs"] (part1 F ++ part2 F)%list [].
Ltac nine H := repeat (destruct H as [<-|H]; [vm_compute; reflexivity|]); destruct H.
Lemma any_cut F : In F all_fields -> whole F = mkfunc ["self"; "rhs"] (part1 F ++ the_m F :: part2 F ++ any_tail F)%list [].
Proof. intros H. nine H. Qed.
Definition watched (F : fld) : list string := let s := anames F in an_x s :: an_c s :: an_y s :: an_a s :: "b" :: an_ds s.
Lemma any_names_ok F : In F all_fields -> lets (an_m (anames F)) (part2 F) = true /\
  forallb (fun x => negb (String.eqb x (an_m (anames F)))) ("self" :: "rhs" :: watched F) = true /\
  forallb (fun x => negb (existsb (fun s => String.eqb x (target s)) (part2 F))) [an_a (anames F); "b"] = true /\
  forallb (fun x => negb (String.eqb x (an_top (anames F)))) ("self" :: "rhs" :: an_ds (anames F)) = true /\
  forallb (fun x => negb (String.eqb x "self")) (an_ds (anames F)) = true /\
  List.length (an_ds (anames F)) = (fl_n F - 1)%nat /\ Nat.leb 2 (fl_n F) = true.
Proof. intros H. repeat (destruct H as [<-|H]; [repeat split; vm_compute; reflexivity|]); destruct H. Qed.
Lemma half_any F : In F all_fields -> fl_w F = half F + half F /\ 0 < half F < 64.
Proof. intros H. repeat (destruct H as [<-|H]; [vm_compute; repeat split; reflexivity|]). destruct H. Qed.
Lemma shamt_any F md : In F all_fields -> shamt md (half F) = Ok (half F).
Proof. intros H. unfold shamt. pose proof (half_any F H). rewrite (proj2 (Z.leb_le _ _)), (proj2 (Z.ltb_lt _ _)) by lia. reflexivity. Qed.

(** ** What the checked part has computed *)
Definition any_facts (F : fld) : list fact :=
  let s := anames F in
  ([(0, ((-1, TX (lowx F)) :: (lowmod F, TQ (an_x s) (half F)) :: (lowmod F, TV (an_c s)) :: extra F) ++ digit_terms (fl_w F) 0 (an_ds s));
   (0, [(-1, TV (an_a s)); (1, TX (if split F then XQ 0 (fl_n F - 1) (half F) else XW 0 (fl_n F - 1)))]);
   (0, [(-1, TV "b"); (1, TX (XI 1))])] ++
  (if split F then [(0, [(-1, TV (an_y s)); (- 2 ^ half F, TX (XMul (XI 1) (XQ 0 (fl_n F - 1) (half F)))); (1, TX (XMul (XI 1) (XW 0 (fl_n F - 1))))])] else []))%list.
Definition any_bounds (F : fld) : list (string * Z * Z) :=
  let s := anames F in (map (fun x => (x, - 2 ^ 61, 2 ^ 61)) (an_x s :: an_c s :: an_y s :: an_ds s) ++ map (fun x => (x, - 2 ^ 63, 2 ^ 63)) [an_a s; "b"])%list.
Lemma rest_checked : forallb (fun F => kpre (rest F) (pre_in F (- 2 ^ 63) (2 ^ 63 - 1)) (fl_w F) (any_bounds F) (any_facts F)) all_fields = true.
Proof. vm_cast_no_check (eq_refl true). Qed.
Lemma neqb_list x y l : forallb (fun z => negb (String.eqb z y)) l = true -> In x l -> x <> y.
Proof. intros H I. rewrite forallb_forall in H. specialize (H x I). now apply negb_true_iff, String.eqb_neq in H. Qed.

(** the top column in wrapping arithmetic *)
Lemma any_release F rho en t : In F all_fields -> let s := anames F in
  lookup (an_x s) en = Some (VInt (rho (an_x s))) -> lookup (an_c s) en = Some (VInt (rho (an_c s))) -> lookup (an_y s) en = Some (VInt (rho (an_y s))) ->
  lookup (an_m s) en = Some (VInt (wrap 64 t)) ->
  eval Release (any_expr F) en = Ok (VInt (wrap 64 (rho (an_x s) / 2 ^ half F + (if split F then rho (an_y s) + 2 ^ half F * t else t) + rho (an_c s)))).
Proof.
  intros HF s X C Y M. pose proof (half_any F HF) as (_ & Hh). unfold any_expr. fold s. destruct (split F); cbn [eval]; unfold get; rewrite ?X, ?Y, ?M, ?C; cbn [bind as_int];
    rewrite !shamt_any by exact HF; cbn [bind as_int]; rewrite !arith_release; cbn [bind as_int]; rewrite ?arith_release; cbn [bind as_int]; rewrite ?arith_release; cbn [bind as_int];
    rewrite Z.shiftr_div_pow2, ?Z.shiftl_mul_pow2 by lia; do 2 f_equal; apply wrap_eq.
  - assert (W : forall z, exists j, wrap 64 z = z - 2 ^ 64 * j) by (intros z; destruct (wrap_lost z) as (j & W & _); now exists j).
    set (x := rho (an_x s) / 2 ^ half F). set (y := rho (an_y s)). set (c := rho (an_c s)). set (h := 2 ^ half F).
    destruct (W t) as (j1 & ->). destruct (W ((t - 2 ^ 64 * j1) * h)) as (j2 & ->). destruct (W (x + y)) as (j3 & ->). destruct (W (x + y - 2 ^ 64 * j3 + ((t - 2 ^ 64 * j1) * h - 2 ^ 64 * j2))) as (j4 & ->).
    replace (x + y - 2 ^ 64 * j3 + ((t - 2 ^ 64 * j1) * h - 2 ^ 64 * j2) - 2 ^ 64 * j4 + c) with (x + (y + h * t) + c + (- (j3 + j1 * h + j2 + j4)) * 2 ^ 64) by ring.
    apply Z.mod_add. discriminate.
  - assert (W : forall z, exists j, wrap 64 z = z - 2 ^ 64 * j) by (intros z; destruct (wrap_lost z) as (j & W & _); now exists j).
    set (x := rho (an_x s) / 2 ^ half F). set (c := rho (an_c s)).
    destruct (W t) as (j1 & ->). destruct (W (x + (t - 2 ^ 64 * j1))) as (j2 & ->).
    replace (x + (t - 2 ^ 64 * j1) - 2 ^ 64 * j2 + c) with (x + t + c + (- (j1 + j2)) * 2 ^ 64) by ring.
    apply Z.mod_add. discriminate.
Qed.
Lemma any_tail_runs F rho a k en t md cl : In F all_fields -> List.length a = fl_n F ->
  Forall (fun d => lookup d en = Some (VInt (rho d))) (an_ds (anames F)) -> lookup "self" en = Some (VArr a) -> lookup "rhs" en = Some (VInt k) ->
  eval md (any_expr F) en = Ok (VInt t) ->
  exists en', exec_list md cl (any_tail F) en = Ok en' /\
    lookup "self" en' = Some (VArr (map (fun d => Z.land (rho d) (2 ^ fl_w F - 1)) (an_ds (anames F)) ++ [t])%list) /\ lookup "rhs" en' = Some (VInt k).
Proof.
  intros HF La D Sf Rf T. destruct (any_names_ok F HF) as (_ & _ & _ & N1 & N2 & N3 & N4). apply Nat.leb_le in N4. set (s := anames F) in *.
  unfold any_tail. fold s. cbn [exec_list exec]. rewrite T. cbn [bind]. rewrite exec_list_app.
  assert (NS : "self" <> an_top s) by (apply (neqb_list _ _ _ N1); now left). assert (NR : "rhs" <> an_top s) by (apply (neqb_list _ _ _ N1); right; now left).
  destruct (stores_run md cl rho (2 ^ fl_w F - 1) (an_ds s)) with (don := @nil Z) (rest := a) (en := upd (an_top s) (VInt t) en) as (en' & Ex & S' & O').
  - intros I. exact (neqb_list _ _ _ N2 I eq_refl).
  - rewrite lookup_upd_ne by exact NS. exact Sf.
  - lia.
  - rewrite Forall_forall in D |- *. intros x Hx. rewrite lookup_upd_ne; [now apply D|]. apply (neqb_list _ _ _ N1). right. right. exact Hx.
  - change (Z.of_nat (List.length (@nil Z))) with 0 in Ex. rewrite Ex. cbn [bind exec_list exec eval]. unfold get.
    rewrite O' by (now apply not_eq_sym). rewrite lookup_upd_eq, S'. cbn [bind as_int as_arr app].
    assert (exists y, skipn (List.length (an_ds s)) a = [y]) as (y & Y).
    { assert (List.length (skipn (List.length (an_ds s)) a) = 1%nat) by (rewrite skipn_length; lia).
      destruct (skipn (List.length (an_ds s)) a) as [|y [|]]; try discriminate. now exists y. }
    rewrite Y. rewrite <- N3, <- (map_length (fun d => Z.land (rho d) (2 ^ fl_w F - 1)) (an_ds s)), zset_app. cbn [bind].
    eexists. split; [reflexivity|]. rewrite lookup_upd_eq. split; [reflexivity|]. rewrite lookup_upd_ne by discriminate. rewrite O' by discriminate.
    rewrite lookup_upd_ne by exact NR. exact Rf.
Qed.

Lemma any_run F a k : In F all_fields -> any_rep F a -> is_i32 k ->
  exists rho o j, (forall cl, run_func Release cl (whole F) [VArr a; VInt k] = Ok ([], [VArr o; VInt k])) /\ any_rep F o /\
    value F o = value F a * k + fl_C F * carry F a - fsum [VArr a; VInt k] rho 0 (extra F) - lowmod F * 2 ^ 64 * j /\ Z.abs j <= 2 ^ 40 /\
    Forall (fun d => - 2 ^ 61 <= rho d <= 2 ^ 61) (an_ds (anames F)).
Proof.
  intros HF R Hk. destruct (layout_facts F HF) as (Hn & Hw & Ht & _). pose proof (proj1 (forallb_forall _ _) rest_checked F HF) as K. cbv beta in K.
  destruct (pre_sound _ _ _ _ _ K [VArr a; VInt k]) as (rho & RUN & BD & FS).
  { unfold pre_in. repeat constructor; [apply rep_arg; auto|exists k; split; [reflexivity|exact Hk]]. }
  destruct (any_names_ok F HF) as (LT & NM & FR & _ & _ & Lds & N4). apply Nat.leb_le in N4.
  set (s := anames F) in *. set (h := 2 ^ half F) in *. set (args := [VArr a; VInt k]) in *. pose proof R as (La & _ & _).
  unfold any_bounds in RUN, BD. fold s in RUN, BD.
  assert (BD' : Forall (fun x => - 2 ^ 61 <= rho x <= 2 ^ 61) (an_x s :: an_c s :: an_y s :: an_ds s)).
  { apply Forall_app in BD as (BD & _). rewrite Forall_map in BD. exact BD. }
  clear BD. apply Forall_cons_iff in BD' as (Bx & BD). apply Forall_cons_iff in BD as (Bc & BD). apply Forall_cons_iff in BD as (_ & BD).
  unfold any_facts in FS. fold s in FS. apply Forall_app in FS as (FS & FY).
  apply Forall_cons_iff in FS as (F4 & FS). apply Forall_cons_iff in FS as (Fa & FS). apply Forall_cons_iff in FS as (Fb & _).
  destruct F4 as (q4 & F4), Fa as (qa & Fa), Fb as (qb & Fb). cbn [fst snd] in F4, Fa, Fb. rewrite !Z.mul_0_r in *.
  rewrite fsum_app, digits_value in F4 by lia. rewrite Z.mul_0_r, Z.pow_0_r, Z.mul_1_l in F4.
  change (fsum args rho 0 ((-1, TX (lowx F)) :: (lowmod F, TQ (an_x s) (half F)) :: (lowmod F, TV (an_c s)) :: extra F)) with
    (-1 * (k * xden args (vexp 0 (fl_w F) 0 (fl_n F - 1)) + fl_C F * xden args (cy F 0)) + (lowmod F * (rho (an_x s) / h) + (lowmod F * rho (an_c s) + fsum args rho 0 (extra F)))) in F4.
  rewrite (cy_den F args 0 a eq_refl), (vexp_den args 0 (fl_w F) a eq_refl) in F4 by lia. cbn [skipn] in F4. fold (lowpart F a) in F4.
  change (fsum args rho 0 [(-1, TV "b"); (1, TX (XI 1))]) with (-1 * rho "b" + (1 * k + 0)) in Fb.
  set (ws := map (fun d => Z.land (rho d) (2 ^ fl_w F - 1)) (an_ds s)) in *. set (e := fsum args rho 0 (extra F)) in *.
  assert (Lws : List.length ws = (fl_n F - 1)%nat) by (unfold ws; rewrite map_length; exact Lds).
  assert (Wb : forall i, (i < fl_n F - 1)%nat -> 0 <= nth i ws 0 < 2 ^ fl_w F).
  { intros i Hi. unfold ws. assert (G : forall l n, (n < List.length l)%nat -> 0 <= nth n (map (fun d => Z.land (rho d) (2 ^ fl_w F - 1)) l) 0 < 2 ^ fl_w F).
    { replace (2 ^ fl_w F - 1) with (Z.ones (fl_w F)) by (rewrite Z.ones_equiv; lia). intros l. induction l as [|d l IH]; intros n Hl; [cbn in Hl; lia|].
      destruct n; cbn [map nth]; [rewrite Z.land_ones by lia; apply Z.mod_pos_bound; lia|apply IH; cbn in Hl; lia]. }
    apply G. lia. }
  (* the product of the removed statement, before it wraps *)
  set (t := rho (an_a s) * rho "b").
  set (T := rho (an_x s) / h + (if split F then rho (an_y s) + h * t else t) + rho (an_c s)).
  assert (ET : T = rho (an_x s) / h + k * top F a + rho (an_c s)).
  { unfold T, t. assert (Eb : rho "b" = k) by lia. rewrite Eb. destruct (split F).
    - apply Forall_cons_iff in FY as (Fy & _). destruct Fy as (qy & Fy). cbn [fst snd] in Fy. rewrite Z.mul_0_r in Fy.
      change (fsum args rho 0 [(-1, TV (an_y s)); (- 2 ^ half F, TX (XMul (XI 1) (XQ 0 (fl_n F - 1) (half F)))); (1, TX (XMul (XI 1) (XW 0 (fl_n F - 1))))]) with
        (-1 * rho (an_y s) + (- h * (k * (top F a / h)) + (1 * (k * top F a) + 0))) in Fy.
      change (fsum args rho 0 [(-1, TV (an_a s)); (1, TX (XQ 0 (fl_n F - 1) (half F)))]) with (-1 * rho (an_a s) + (1 * (top F a / h) + 0)) in Fa.
      assert (Ea : rho (an_a s) = top F a / h) by lia. rewrite Ea. assert (Ey : rho (an_y s) = k * top F a - h * (k * (top F a / h))) by (revert Fy; clear; generalize (k * (top F a / h)); intros; nia). rewrite Ey. ring.
    - change (fsum args rho 0 [(-1, TV (an_a s)); (1, TX (XW 0 (fl_n F - 1)))]) with (-1 * rho (an_a s) + (1 * top F a + 0)) in Fa.
      assert (Ea : rho (an_a s) = top F a) by lia. rewrite Ea. ring. }
  destruct (wrap_lost T) as (j & Wj & _ & Wabs).
  destruct (rep_value F _ _ a HF R) as (Va & Vl).
  set (o := (ws ++ [wrap 64 T])%list).
  assert (To : top F o = wrap 64 T) by (unfold top, o; rewrite <- Lws, app_nth2, Nat.sub_diag by lia; reflexivity).
  exists rho, o, j. fold args e. split; [|split; [|split; [|split]]].
  - intros cl. destruct (RUN Release cl) as (en & Ex & En & Ep).
    rewrite (any_cut F HF). unfold run_func. cbn [f_params f_body f_rets List.length Nat.eqb args].
    change (f_params (rest F)) with ["self"; "rhs"] in Ex, Ep. change (f_body (rest F)) with (part1 F ++ part2 F)%list in Ex. rewrite exec_list_app in Ex. rewrite exec_list_app.
    fold args. destruct (exec_list Release cl (part1 F) (combine ["self"; "rhs"] args)) as [en1| |] eqn:E1; cbn [bind] in Ex; try discriminate. cbn [bind].
    apply Forall_app in En as (En & Em). rewrite Forall_map in En, Em. cbn [fst snd] in En, Em.
    apply Forall_cons_iff in Em as (Ea & Em). apply Forall_cons_iff in Em as (Eb & _).
    apply Forall_cons_iff in En as (Xx & En). apply Forall_cons_iff in En as (Xc & En). apply Forall_cons_iff in En as (Xy & En).
    inversion Ep as [|? ? ? ? P1 Ep']; subst. inversion Ep' as [|? ? ? ? P2 _]; subst.
    cbn [forallb] in FR. rewrite andb_true_r in FR. apply andb_true_iff in FR as [FRa FRb]. apply negb_true_iff in FRa, FRb.
    assert (Ga : lookup (an_a s) en1 = Some (VInt (rho (an_a s)))) by (rewrite <- (lets_frame _ _ _ _ _ LT FRa _ _ Ex); exact Ea).
    assert (Gb : lookup "b" en1 = Some (VInt (rho "b"))) by (rewrite <- (lets_frame _ _ _ _ _ LT FRb _ _ Ex); exact Eb).
    unfold the_m. fold s. cbn [exec_list exec eval]. unfold get. rewrite Ga, Gb. cbn [bind as_int]. rewrite arith_release. cbn [bind]. fold t.
    destruct (insert_let Release cl (an_m s) (part2 F) LT en1 (upd (an_m s) (VInt (wrap 64 t)) en1) en) as (en2 & X2 & A2 & L2).
    { intros x Hx. now apply lookup_upd_ne. }
    { exact Ex. }
    rewrite lookup_upd_eq in L2. rewrite exec_list_app, X2. cbn [bind].
    assert (NE : forall x, In x ("self" :: "rhs" :: watched F) -> x <> an_m s) by (intros x; apply (neqb_list _ _ _ NM)). unfold watched in NE. fold s in NE.
    destruct (any_tail_runs F rho a k en2 (wrap 64 T) Release cl HF La) as (en3 & X3 & S3 & R3).
    { rewrite Forall_forall in En |- *. intros x Hx. rewrite A2; [now apply En|]. apply NE. do 7 right. exact Hx. }
    { rewrite A2 by (apply NE; cbn; tauto). exact P1. }
    { rewrite A2 by (apply NE; cbn; tauto). exact P2. }
    { unfold T. apply any_release; [exact HF|..]; fold s; [| | |exact L2]; (rewrite A2 by (apply NE; cbn; tauto)); assumption. }
    rewrite X3. cbn [bind evals gets]. unfold get. rewrite S3, R3. reflexivity.
  - split; [unfold o; rewrite app_length, Lws; cbn; lia|]. split; [intros i Hi; unfold o; rewrite app_nth1 by lia; now apply Wb|].
    rewrite To. unfold wrap. cbv zeta. pose proof (Z.mod_pos_bound T (2 ^ 64) ltac:(lia)). change (64 - 1) with 63. destruct (Z.ltb_spec (T mod 2 ^ 64) (2 ^ 63)); lia.
  - unfold value at 1, o. rewrite words_snoc, Lws by lia. fold (lowmod F). rewrite Wj, Va, ET.
    assert (A : lowmod F * (rho (an_x s) / h) + lowmod F * rho (an_c s) + words_value (fl_w F) ws = k * lowpart F a + fl_C F * carry F a - e) by lia. 
    replace (lowmod F * (rho (an_x s) / h + k * top F a + rho (an_c s) - 2 ^ 64 * j)) with
      (lowmod F * (rho (an_x s) / h) + lowmod F * rho (an_c s) + lowmod F * (k * top F a) - lowmod F * 2 ^ 64 * j) by ring. lia.
  - assert (Hh : 1 <= h) by (unfold h; pose proof (half_any F HF); pose proof (pow2_pos (half F) ltac:(lia)); lia).
    assert (Xb : Z.abs (rho (an_x s) / h) <= 2 ^ 61) by (apply div_abs; [lia|]; nia).
    assert (Kb : Z.abs (k * top F a) <= 2 ^ 31 * 2 ^ 63).
    { destruct R as (_ & _ & Rt). unfold is_i32 in Hk. rewrite Z.abs_mul. apply Z.mul_le_mono_nonneg; lia. }
    assert (TB : Z.abs T <= 2 ^ 95) by (rewrite ET; change (2 ^ 95) with (2 * (2 ^ 31 * 2 ^ 63)); change (2 ^ 63) with (4 * 2 ^ 61) in *; lia).
    change (2 ^ 95) with (2 ^ 31 * 2 ^ 64) in TB. change (2 ^ 40) with (512 * 2 ^ 31). lia.
  - exact BD.
Qed.

(** ** The theorems *)
Lemma extra_none F : In F all_fields -> F <> e521_1 -> extra F = [].
Proof. intros HF N. unfold extra. destruct (is_521 F) eqn:E; [|reflexivity]. exfalso. repeat (destruct HF as [<-|HF]; [first [discriminate E|now apply N]|]). destruct HF. Qed.
Lemma any_carry F a : In F all_fields -> any_rep F a -> - 2 ^ (63 - fl_tb F) <= carry F a < 2 ^ (63 - fl_tb F).
Proof.
  intros HF (_ & _ & T). assert (E : 2 ^ 63 = 2 ^ (63 - fl_tb F) * 2 ^ fl_tb F) by (clear -HF; nine HF). pose proof (B_pos F HF) as P. unfold B in P.
  unfold carry. split; [apply Z.div_le_lower_bound; [lia|]|apply Z.div_lt_upper_bound; [lia|]]; rewrite Z.mul_comm; [|]; lia.
Qed.
Lemma small_mul_word F a k : In F all_fields -> F <> e521_1 -> any_rep F a -> is_i32 k ->
  exists o, small_or_panics F "mul" a k o /\ any_rep F o /\
    (2 ^ (64 + fl_w F * Z.of_nat (fl_n F - 1)) | value F a * k + fl_C F * carry F a - value F o).
Proof.
  intros HF N R Hk. destruct (any_run F a k HF R Hk) as (rho & o & j & X & Ro & V & _ & _). exists o. split; [now apply whole_small|]. split; [exact Ro|].
  rewrite (extra_none F HF N) in V. change (fsum [VArr a; VInt k] rho 0 []) with 0 in V. exists j. destruct (layout_facts F HF) as (Hn & Hw & Ht & _). rewrite Z.pow_add_r by nia.
  fold (lowmod F). rewrite V. ring.
Qed.
Lemma carry_spoils F a k : In F all_fields -> any_rep F a -> is_i32 k -> carry F a <> 0 ->
  exists o, small_or_panics F "mul" a k o /\ any_rep F o /\ ~ eqmod F (value F o) (value F a * k).
Proof.
  intros HF R Hk C0. destruct (any_run F a k HF R Hk) as (rho & o & j & X & Ro & V & J & BD). exists o. split; [now apply whole_small|]. split; [exact Ro|].
  pose proof (any_carry F a HF R) as Cb. intros E. apply C0.
  assert (D : F = e521_1 \/ F <> e521_1).
  { clear -HF. assert (N : forall F, fl_C F <> 1 -> F <> e521_1) by (intros G H E; subst G; apply H; reflexivity).
    repeat (destruct HF as [<-|HF]; [first [now left|right; apply N; discriminate]|]). destruct HF. }
  destruct D as [->|N].
  - rewrite extra_521 in V. apply eqmod_divide in E; [|exact in_521]. change (an_ds (anames e521_1)) with ["d0"; "d1"; "d2"; "d3"; "d4"; "d5"; "d6"; "d7"; "d8"] in BD.
    do 5 (apply Forall_cons_iff in BD as (_ & BD)). apply Forall_cons_iff in BD as (B5 & BD). apply Forall_cons_iff in BD as (B6 & BD). apply Forall_cons_iff in BD as (B7 & BD). apply Forall_cons_iff in BD as (B8 & _).
    assert (Bd : forall x, - 2 ^ 61 <= x <= 2 ^ 61 -> Z.abs (x / 2 ^ 54) <= 2 ^ 8) by (intros x Hx; apply div_abs; [lia|]; change (2 ^ 8 * 2 ^ 54) with (2 * 2 ^ 61); lia).
    apply Bd in B5, B6, B7, B8. clear Bd. change (2 ^ (63 - fl_tb e521_1)) with (2 ^ 28) in Cb.
    destruct (no_cancel_wide (2 ^ 29 * j - carry e521_1 a) (rho "d6" / 2 ^ 54 - rho "d5" / 2 ^ 54) (rho "d7" / 2 ^ 54 - rho "d6" / 2 ^ 54) (rho "d8" / 2 ^ 54 - rho "d7" / 2 ^ 54)) as (C & _); [lia|lia|lia|lia| |].
    { destruct E as (q & E). exists (q - 2 ^ 29 * j). change (fl_C e521_1) with 1 in V. change (lowmod e521_1) with (2 ^ 486) in V.
      change (modulus e521_1) with (2 ^ 521 - 1) in *. replace ((q - 2 ^ 29 * j) * (2 ^ 521 - 1)) with (q * (2 ^ 521 - 1) - 2 ^ 29 * 2 ^ 521 * j + 2 ^ 29 * j) by ring.
      rewrite <- E, V. change (2 ^ 29 * 2 ^ 521) with (2 ^ 486 * 2 ^ 64). ring. }
    clear - C Cb. change (2 ^ 29) with (2 * 2 ^ 28) in C. change (2 ^ 28) with 268435456 in *. lia.
  - rewrite (extra_none F HF N) in V. change (fsum [VArr a; VInt k] rho 0 []) with 0 in V. rewrite Z.sub_0_r in V.
    assert (PM : modulus F = lowmod F * B F - fl_C F) by (unfold modulus; rewrite pow_nbits' by exact HF; reflexivity).
    set (g := 2 ^ (63 - fl_tb F)) in *.
    assert (G : 2 ^ 64 = B F * (2 * g) /\ 0 < g <= 2 ^ 63 /\ Z.gcd (modulus F) (fl_C F) = 1 /\ 2 ^ 110 < modulus F).
    { unfold g. clear -HF. repeat (destruct HF as [<-|HF]; [vm_compute; repeat split; try discriminate; reflexivity|]). destruct HF. }
    destruct G as (Eg & Hg & Gc & Gp).
    assert (X' : - (carry F a - 2 * g * j) = 0).
    { apply (lost F (value F o) (value F a * k) (fl_C F)); [| | |exact E].
      - exists (- (2 * g * j)). rewrite V, Eg, PM. ring.
      - exact Gc.
      - apply Z.le_lt_trans with (2 * 2 ^ 63 * 2 ^ 40 + 2 ^ 63); [|change (2 ^ 110) with (2 ^ 64 * 2 ^ 46) in Gp; lia].
        assert (Z.abs (2 * g * j) <= 2 * 2 ^ 63 * 2 ^ 40) by (rewrite Z.abs_mul; apply Z.mul_le_mono_nonneg; lia). lia. }
    clear - X' Cb Hg. assert (E : carry F a = 2 * g * j) by lia. assert (j < 1) by nia. assert (- 1 < j) by nia. assert (j = 0) by lia. subst j. lia.
Qed.
Lemma small_mul_any F a k : In F all_fields -> any_rep F a -> is_i32 k ->
  exists o, small_or_panics F "mul" a k o /\ any_rep F o /\ (eqmod F (value F o) (value F a * k) <-> small_exact F a k) /\
    (small_exact F a k -> computes_small F "mul" a k o /\ value F o = value F a * k).
Proof.
  intros HF R Hk. destruct (Z.eq_dec (carry F a) 0) as [C0|C0].
  - apply small_mul_exact; [exact HF| |exact Hk]. destruct (carry_tight F _ _ a HF R C0) as (La & Wa & Ta). split; [exact La|]. split; [exact Wa|].
    pose proof (B_pos F HF) as P. assert (C : 0 < fl_C F < 200) by (clear -HF; repeat (destruct HF as [<-|HF]; [vm_compute; split; reflexivity|]); destruct HF). unfold B, mx in *. nia.
  - destruct (carry_spoils F a k HF R Hk C0) as (o & S & Ro & W). exists o. split; [exact S|]. split; [exact Ro|].
    split; [split; [intros E; contradiction|intros (E & _); contradiction]|intros (E & _); contradiction].
Qed.
