(** Exactly when a small product is right, for every i32 multiplier.  A large
    multiplier overflows the top word, so the function is cut in two: up to the
    top column it is run by the checker of Kmore.v, and the top column is worked
    out by hand in wrapping arithmetic. *)
From Coq Require Import ZArith List String Lia Bool.
From Verif Require Import Lang Poly Kernel Kmore Fields Kfacts Ops Normalize Methods Arith Exact Cuts.
Import ListNotations.
Local Open Scope string_scope.
Local Open Scope Z_scope.

(** ** Part of a function *)
Definition kpre (fn : func) (ds : list desc) (w : Z) (bs : list (string * Z * Z)) (fs : list fact) : bool :=
  params_ok fn ds &&
  forallb (fun p => negb (existsb (fun s => String.eqb p (target s)) (f_body fn))) (f_params fn) &&
  match sexecs w [] (init_objs 1 ds) (f_body fn) (fst (kinit fn ds)) (snd (kinit fn ds)) with
  | SOk ae s => match fchk (init_objs 1 ds) ae [] fs s with
                | Some s' => tbl_ok (Pos.of_nat (1 + total ds)) (s_tbl s') && forallb (fbnd ae) bs
                | None => false end
  | _ => false
  end.
Theorem pre_sound fn ds w bs fs : kpre fn ds w bs fs = true ->
  forall args, Forall2 arg_ok ds args ->
  exists rho, (forall md cl, exists en, exec_list md cl (f_body fn) (combine (f_params fn) args) = Ok en /\
      Forall (fun b => lookup (fst (fst b)) en = Some (VInt (rho (fst (fst b))))) bs /\
      Forall2 (fun x v => lookup x en = Some v) (f_params fn) args) /\
    Forall (fun b => snd (fst b) <= rho (fst (fst b)) <= snd b) bs /\
    Forall (fun f => (fst f | fsum args rho 0 (snd f))) fs.
Proof.
  unfold kpre. rewrite !andb_true_iff. intros [[HP HT] H] args F.
  destruct (sexecs _ _ _ _ _ _) as [ae s| |] eqn:ES; try discriminate.
  destruct (fchk _ _ _ fs s) as [s'|] eqn:Sp; try discriminate.
  rewrite andb_true_iff in H. destruct H as [HS HN].
  destruct (kinit_ok fn _ _ HP F) as (r0 & rvs & Hs & Hf & K).
  destruct (tbl_build _ _ r0 HS) as (r & R0 & R1).
  destruct (K r R0) as [FO ER]. clear K.
  assert (M' : models r s') by exact R1.
  assert (M : models r s) by (eapply models_ext; [eapply fchk_ext; eauto|exact M']).
  unfold params_ok in HP. rewrite andb_true_iff, Nat.eqb_eq in HP. destruct HP as [HP1 HP2]. apply nodupb_ok in HP2.
  assert (LA : List.length (f_params fn) = List.length args) by (rewrite HP1; eapply Forall2_len; eauto).
  pose proof (lookup_combine (f_params fn) args HP2 LA) as FC.
  assert (RUN : forall md cl, exists en, exec_list md cl (f_body fn) (combine (f_params fn) args) = Ok en /\
     env_rel r (rests (f_params fn) (map2 rest_of ds args)) ae en).
  { intros md cl. pose proof (sexecs_sound md cl r _ _ _ FO w [] (f_body fn) _ _ (snd (kinit fn ds)) ER) as X.
    rewrite ES in X. exact (X M). }
  exists (rho_of r ae). split; [|split].
  - intros md cl. destruct (RUN md cl) as (en & EX & ER'). exists en. split; [exact EX|]. split.
    + apply Forall_forall. intros ((x, lo), hi) Hin. rewrite forallb_forall in HN. specialize (HN _ Hin). unfold fbnd in HN. cbn [fst snd] in HN |- *.
      destruct (lookup x ae) as [[v|]|] eqn:L; try discriminate. destruct (ER' _ _ L) as (u & Lu & z & -> & Hz). rewrite Lu. f_equal. f_equal.
      unfold rho_of. rewrite L. exact (proj1 Hz).
    + assert (G : forall x, In x (f_params fn) -> lookup x en = lookup x (combine (f_params fn) args)).
      { intros x Hx. eapply frame_stmts; eauto. rewrite forallb_forall in HT. specialize (HT x Hx). now apply negb_true_iff in HT. }
      clear -FC G. revert FC G. generalize (combine (f_params fn) args) as e. generalize (f_params fn) as ps. intros ps e FC.
      induction FC as [|x v ps args H FC IH]; intros G; constructor; [rewrite G by (now left); exact H|]. apply IH. intros y Hy. apply G. now right.
  - destruct (RUN Debug (fun _ _ => Stuck)) as (en & _ & ER').
    apply Forall_forall. intros ((x, lo), hi) Hin. rewrite forallb_forall in HN. specialize (HN _ Hin). unfold fbnd in HN. cbn [fst snd] in HN |- *.
    destruct (lookup x ae) as [[v|]|] eqn:L; try discriminate. rewrite andb_true_iff, !Z.leb_le in HN.
    pose proof (proj2 (rho_holds r _ ae en ER' x v L)). lia.
  - destruct (RUN Debug (fun _ _ => Stuck)) as (en & _ & ER').
    pose proof (fchk_sound r _ _ _ FO ae en ER' [] fs _ _ Sp M') as Y. rewrite Hs in Y. exact Y.
Qed.

(** ** The top column *)
Record column_names := mkcn { cn_ds : list string; cn_top : string; cn_x : string; cn_y : string; cn_m : string; cn_c : string }.
Definition names (F : fld) : column_names :=
  match fl_n F with
  | 4%nat => mkcn ["d0"; "d1"; "d2"] "d3" "m5" "m6" "m7" "c2"
  | 5%nat => mkcn ["d0"; "d1"; "d2"; "d3"] "d4" "m7" "m8" "m9" "c3"
  | 7%nat => mkcn ["d0"; "d1"; "d2"; "d3"; "d4"; "d5"] "d6" "m11" "m12" "m13" "c5"
  | _ => mkcn ["d0"; "d1"; "d2"; "d3"; "d4"; "d5"; "d6"; "d7"; "d8"] "d9" "m17" "m18" "m19" "c8"
  end.
Definition half (F : fld) : Z := fl_w F / 2.
Fixpoint stores (i mask : Z) (ds : list string) : list stmt :=
  match ds with [] => [] | d :: t => SSet "self" (EInt i) (EAnd (EVar d) (EInt mask)) :: stores (i + 1) mask t end.
Definition tail_of (F : fld) : list stmt :=
  let s := names F in
  (SLet (cn_top s) (EAdd (EAdd (EAdd (EShr (EVar (cn_x s)) (EInt (half F))) (EVar (cn_y s))) (EShl (EVar (cn_m s)) (EInt (half F)))) (EVar (cn_c s))) ::
   stores 0 (2 ^ fl_w F - 1) (cn_ds s) ++ [SSet "self" (EInt (Z.of_nat (fl_n F - 1))) (EVar (cn_top s))])%list.
Definition whole (F : fld) : func := fn F "F::small_mul_assign".
Definition pre (F : fld) : func := mkfunc ["self"; "rhs"] (firstn (List.length (f_body (whole F)) - S (fl_n F)) (f_body (whole F))) [].
Definition tall : list fld := [e221_3; e222_117; e255_19; e382_105; e383_187; e521_1].
Lemma whole_cut F : In F tall -> whole F = mkfunc ["self"; "rhs"] (f_body (pre F) ++ tail_of F)%list [].
Proof. intros H. repeat (destruct H as [<-|H]; [vm_compute; reflexivity|]). destruct H. Qed.

Lemma zset_app l x m v : zset (l ++ x :: m) (Z.of_nat (List.length l)) v = Some (l ++ v :: m)%list.
Proof.
  unfold zset. destruct (Z.ltb_spec (Z.of_nat (List.length l)) 0) as [|_]; [lia|]. rewrite Nat2Z.id.
  induction l as [|h l IH]; cbn [app upd_nth List.length]; [reflexivity|]. now rewrite IH.
Qed.
Lemma exec_list_app md cl l m en : exec_list md cl (l ++ m)%list en = bind (exec_list md cl l en) (exec_list md cl m).
Proof. revert en. induction l as [|s l IH]; intros en; [reflexivity|]. cbn [app exec_list]. destruct (exec md cl s en); cbn [bind]; [apply IH|reflexivity|reflexivity]. Qed.
Lemma stores_run md cl rho mask ds : ~ In "self" ds -> forall don rest en, lookup "self" en = Some (VArr (don ++ rest)) ->
  (List.length ds <= List.length rest)%nat -> Forall (fun d => lookup d en = Some (VInt (rho d))) ds ->
  exists en', exec_list md cl (stores (Z.of_nat (List.length don)) mask ds) en = Ok en' /\
    lookup "self" en' = Some (VArr (don ++ map (fun d => Z.land (rho d) mask) ds ++ skipn (List.length ds) rest)) /\
    (forall x, x <> "self" -> lookup x en' = lookup x en).
Proof.
  induction ds as [|d ds IH]; intros NS don rest en LS L F.
  - exists en. cbn. auto.
  - destruct rest as [|r rest]; [cbn in L; lia|]. apply Forall_cons_iff in F as (Fd & F).
    assert (N : d <> "self") by (intros ->; apply NS; now left). assert (NS' : ~ In "self" ds) by (intros ?; apply NS; now right).
    set (v := Z.land (rho d) mask).
    destruct (IH NS' (don ++ [v])%list rest (upd "self" (VArr (don ++ v :: rest)) en)) as (en' & E & S & O).
    + rewrite lookup_upd_eq, <- app_assoc. reflexivity.
    + cbn in L. lia.
    + rewrite Forall_forall in F |- *. intros x Hx. rewrite lookup_upd_ne by (intros ->; contradiction). now apply F.
    + exists en'. split; [|split].
      * cbn [stores exec_list exec eval bind as_int]. unfold get. rewrite Fd, LS. cbn [bind as_int as_arr]. fold v. rewrite zset_app. cbn [bind].
        replace (Z.of_nat (List.length don) + 1) with (Z.of_nat (List.length (don ++ [v])%list)) by (rewrite app_length; cbn; lia). exact E.
      * rewrite S, <- app_assoc. reflexivity.
      * intros x Hx. rewrite O by exact Hx. now apply lookup_upd_ne.
Qed.

Lemma wrap_eq a b : a mod 2 ^ 64 = b mod 2 ^ 64 -> wrap 64 a = wrap 64 b.
Proof. unfold wrap. intros ->. reflexivity. Qed.
Lemma arith_release z : arith Release z = Ok (wrap 64 z).
Proof. unfold arith. destruct (in_i64 z) eqn:E; [now rewrite wrap64_id|reflexivity]. Qed.
Lemma arith_in md z : - 2 ^ 63 <= z < 2 ^ 63 -> arith md z = Ok z.
Proof. intros H. unfold arith. now rewrite (proj2 (in_i64_iff z) H). Qed.
Lemma wrap_wrap_add a b : wrap 64 (wrap 64 a + b) = wrap 64 (a + b).
Proof. apply wrap_eq. rewrite Z.add_mod, wrap_mod, <- Z.add_mod by lia. reflexivity. Qed.
(** the part of the top word above 64 bits *)
Lemma wrap_lost z : exists j, wrap 64 z = z - 2 ^ 64 * j /\ (j = 0 <-> - 2 ^ 63 <= z < 2 ^ 63) /\ (2 ^ 64 * Z.abs j <= 2 * Z.abs z + 2 ^ 64).
Proof.
  unfold wrap. cbv zeta. change (64 - 1) with 63. pose proof (Z.div_mod z (2 ^ 64) ltac:(lia)) as D. pose proof (Z.mod_pos_bound z (2 ^ 64) ltac:(lia)) as M.
  change (2 ^ 64) with (2 * 2 ^ 63) in *. set (q := z / (2 * 2 ^ 63)) in *. set (m := z mod (2 * 2 ^ 63)) in *. clearbody q m. change (2 ^ 63) with 9223372036854775808 in *.
  destruct (Z.ltb_spec m 9223372036854775808); [exists q|exists (q + 1)]; lia.
Qed.

Lemma half_ok F : In F tall -> 0 <= half F < 64.
Proof. intros H. repeat (destruct H as [<-|H]; [vm_compute; split; [discriminate|reflexivity]|]); destruct H. Qed.
Lemma names_ok F : In F tall -> ~ In (cn_top (names F)) ("self" :: "rhs" :: cn_ds (names F)) /\ ~ In "self" (cn_ds (names F)) /\
  List.length (cn_ds (names F)) = (fl_n F - 1)%nat /\ (1 <= fl_n F)%nat.
Proof.
  intros H. repeat (destruct H as [<-|H]; [split; [|split; [|split; [reflexivity|cbn; lia]]]; cbn; intuition discriminate|]). destruct H.
Qed.
Lemma shamt_half F md : In F tall -> shamt md (half F) = Ok (half F).
Proof. intros HT. unfold shamt. pose proof (half_ok F HT). rewrite (proj2 (Z.leb_le _ _)), (proj2 (Z.ltb_lt _ _)) by lia. reflexivity. Qed.
Section Column.
  Variables (F : fld) (HT : In F tall).
  Let s := names F.
  Variables (rho : string -> Z) (a : list Z) (k : Z) (en : env).
  Hypothesis L : List.length a = fl_n F.
  Hypothesis E : Forall (fun d => lookup d en = Some (VInt (rho d))) (cn_x s :: cn_y s :: cn_m s :: cn_c s :: cn_ds s).
  Hypothesis Sf : lookup "self" en = Some (VArr a).
  Hypothesis Rf : lookup "rhs" en = Some (VInt k).
  Definition topval : Z := rho (cn_x (names F)) / 2 ^ half F + rho (cn_y (names F)) + 2 ^ half F * rho (cn_m (names F)) + rho (cn_c (names F)).
  Definition top_expr : expr := EAdd (EAdd (EAdd (EShr (EVar (cn_x s)) (EInt (half F))) (EVar (cn_y s))) (EShl (EVar (cn_m s)) (EInt (half F)))) (EVar (cn_c s)).
  Lemma top_reads : lookup (cn_x s) en = Some (VInt (rho (cn_x s))) /\ lookup (cn_y s) en = Some (VInt (rho (cn_y s))) /\
    lookup (cn_m s) en = Some (VInt (rho (cn_m s))) /\ lookup (cn_c s) en = Some (VInt (rho (cn_c s))) /\
    Forall (fun d => lookup d en = Some (VInt (rho d))) (cn_ds s).
  Proof. do 4 (apply Forall_cons_iff in E as (? & E)). auto. Qed.
  Lemma top_release : eval Release top_expr en = Ok (VInt (wrap 64 topval)).
  Proof.
    clear L Sf Rf. destruct top_reads as (X & Y & M & C & _). unfold top_expr. cbn [eval]. unfold get. rewrite X, Y, M, C. cbn [bind as_int].
    rewrite !shamt_half by exact HT. cbn [bind as_int]. rewrite !arith_release. cbn [bind as_int]. rewrite !arith_release. cbn [bind as_int]. rewrite !arith_release. cbn [bind as_int].
    pose proof (half_ok F HT). rewrite Z.shiftr_div_pow2, Z.shiftl_mul_pow2 by lia. do 2 f_equal. unfold topval. fold s.
    rewrite wrap_wrap_add, <- Z.add_assoc, wrap_wrap_add. rewrite (Z.add_comm _ (wrap 64 (_ * _) + _)), <- Z.add_assoc, wrap_wrap_add. f_equal. ring.
  Qed.
  Lemma top_checked md : - 2 ^ 63 <= rho (cn_x s) / 2 ^ half F + rho (cn_y s) < 2 ^ 63 -> - 2 ^ 63 <= 2 ^ half F * rho (cn_m s) < 2 ^ 63 ->
    - 2 ^ 63 <= rho (cn_x s) / 2 ^ half F + rho (cn_y s) + 2 ^ half F * rho (cn_m s) < 2 ^ 63 -> - 2 ^ 63 <= topval < 2 ^ 63 ->
    eval md top_expr en = Ok (VInt topval).
  Proof.
    clear L Sf Rf. destruct top_reads as (X & Y & M & C & _). intros H1 H2 H3 H4. unfold top_expr. cbn [eval]. unfold get. rewrite X, Y, M, C. cbn [bind as_int].
    pose proof (half_ok F HT). rewrite !shamt_half by exact HT. cbn [bind as_int]. rewrite Z.shiftr_div_pow2, Z.shiftl_mul_pow2, (Z.mul_comm (rho (cn_m s))) by lia.
    rewrite (wrap64_id (2 ^ half F * rho (cn_m s))) by now apply in_i64_iff.
    rewrite arith_in by exact H1. cbn [bind as_int]. rewrite arith_in by exact H3. cbn [bind as_int]. unfold topval in *. fold s in H4 |- *. rewrite arith_in by exact H4. reflexivity.
  Qed.
  Lemma tail_runs md cl t : eval md top_expr en = Ok (VInt t) ->
    exists en', exec_list md cl (tail_of F) en = Ok en' /\
      lookup "self" en' = Some (VArr (map (fun d => Z.land (rho d) (2 ^ fl_w F - 1)) (cn_ds s) ++ [t])%list) /\ lookup "rhs" en' = Some (VInt k).
  Proof.
    intros T. destruct (names_ok F HT) as (N1 & N2 & N3 & N4). fold s in N1, N2, N3. destruct top_reads as (_ & _ & _ & _ & D).
    unfold tail_of. fold s. fold top_expr. cbn [exec_list exec]. rewrite T. cbn [bind]. rewrite exec_list_app.
    assert (NS : "self" <> cn_top s) by (intros X; apply N1; left; exact X). assert (NR : "rhs" <> cn_top s) by (intros X; apply N1; right; left; exact X).
    destruct (stores_run md cl rho (2 ^ fl_w F - 1) (cn_ds s) N2 [] a (upd (cn_top s) (VInt t) en)) as (en' & Ex & S' & O').
    - rewrite lookup_upd_ne by exact NS. exact Sf.
    - lia.
    - rewrite Forall_forall in D |- *. intros x Hx. rewrite lookup_upd_ne; [now apply D|]. intros ->. apply N1. right. right. exact Hx.
    - change (Z.of_nat (List.length (@nil Z))) with 0 in Ex. rewrite Ex. cbn [bind exec_list exec eval]. unfold get.
      rewrite O' by (now apply not_eq_sym). rewrite lookup_upd_eq, S'. cbn [bind as_int as_arr app].
      assert (exists y, skipn (List.length (cn_ds s)) a = [y]) as (y & Y).
      { assert (List.length (skipn (List.length (cn_ds s)) a) = 1%nat) by (rewrite skipn_length; lia).
        destruct (skipn (List.length (cn_ds s)) a) as [|y [|]]; try discriminate. now exists y. }
      rewrite Y. rewrite <- N3, <- (map_length (fun d => Z.land (rho d) (2 ^ fl_w F - 1)) (cn_ds s)), zset_app. cbn [bind].
      eexists. split; [reflexivity|]. rewrite lookup_upd_eq. split; [reflexivity|]. rewrite lookup_upd_ne by discriminate. rewrite O' by discriminate.
      rewrite lookup_upd_ne by exact NR. exact Rf.
  Qed.
End Column.

(** ** What the part before the top column has computed *)
Definition lowx (F : fld) : sexp := XAdd (XMul (XI 1) (vexp 0 (fl_w F) 0 (fl_n F - 1))) (XMul (XC (fl_C F)) (cy F 0)).
Definition pre_facts (F : fld) (extra : list (Z * fterm)) : list fact :=
  let s := names F in
  [(0, [(-1, TV (cn_x s)); (1, TX (XMul (XI 1) (XQ 0 (fl_n F - 2) (half F))))]);
   (0, [(-1, TV (cn_m s)); (1, TX (XMul (XI 1) (XQ 0 (fl_n F - 1) (half F))))]);
   (0, [(-1, TV (cn_y s)); (- 2 ^ half F, TV (cn_m s)); (1, TX (XMul (XI 1) (XW 0 (fl_n F - 1))))]);
   (0, ((-1, TX (lowx F)) :: (lowmod F, TQ (cn_x s) (half F)) :: (lowmod F, TV (cn_c s)) :: extra) ++ digit_terms (fl_w F) 0 (cn_ds s))]%list.
Definition pre_bounds (F : fld) : list (string * Z * Z) :=
  let s := names F in map (fun x => (x, - 2 ^ 61, 2 ^ 61)) (cn_x s :: cn_y s :: cn_m s :: cn_c s :: cn_ds s).
Definition pre_in (F : fld) (lo hi : Z) : list desc := [dF F lo hi; DInt (- 2 ^ 31) (2 ^ 31 - 1)].
Definition extra (F : fld) : list (Z * fterm) :=
  if is_521 F then (astray 378 "d5" "d6" ++ astray 432 "d6" "d7" ++ astray 486 "d7" "d8")%list else [].
Lemma pre_checked : forallb (fun F => kpre (pre F) (pre_in F (- B F - 1) (mx F)) (fl_w F) (pre_bounds F) (pre_facts F (extra F))) tall = true.
Proof. vm_cast_no_check (eq_refl true). Qed.
Definition columns521 : list fact :=
  (column 5 ["d0"; "d1"; "d2"; "d3"; "d4"] "m11" [] "d5" ++
   column 6 ["d0"; "d1"; "d2"; "d3"; "d4"; "d5"] "m13" [] "d6" ++
   column 7 ["d0"; "d1"; "d2"; "d3"; "d4"; "d5"; "d6"] "m15" (astray 378 "d5" "d6") "d7" ++
   column 8 ["d0"; "d1"; "d2"; "d3"; "d4"; "d5"; "d6"; "d7"] "m17" (astray 378 "d5" "d6" ++ astray 432 "d6" "d7") "d8")%list.
Lemma pre521_checked : kpre (pre e521_1) (pre_in e521_1 0 (B e521_1 - 1)) 54 (pre_bounds e521_1) (pre_facts e521_1 (extra e521_1) ++ columns521) = true.
Proof. vm_cast_no_check (eq_refl true). Qed.

Lemma tall_all F : In F tall -> In F all_fields. Proof. cbn. tauto. Qed.
Lemma digits_value args rho o w ds : 0 <= w -> forall i, 0 <= i ->
  fsum args rho o (digit_terms w i ds) = 2 ^ (w * i) * words_value w (map (fun d => Z.land (rho d) (2 ^ w - 1)) ds).
Proof.
  intros Hw. induction ds as [|d t IH]; intros i Hi; [cbn; ring|].
  change (fsum args rho o (digit_terms w i (d :: t))) with
    (2 ^ (w * i) * rho d + (- 2 ^ (w * (i + 1)) * (rho d / 2 ^ w) + fsum args rho o (digit_terms w (i + 1) t))).
  rewrite IH by lia. replace (2 ^ w - 1) with (Z.ones w) by (rewrite Z.ones_equiv; lia). cbn [map words_value]. rewrite Z.land_ones by lia.
  pose proof (pow2_pos w Hw) as P. pose proof (Z.div_mod (rho d) (2 ^ w) ltac:(lia)) as D.
  replace (w * (i + 1)) with (w * i + w) by ring. rewrite (Z.pow_add_r 2 (w * i) w) by nia. rewrite D at 1. ring.
Qed.
Lemma fsum_app args rho o l m : fsum args rho o (l ++ m)%list = fsum args rho o l + fsum args rho o m.
Proof.
  induction l as [|c l IH]; [reflexivity|]. change (fsum args rho o ((c :: l) ++ m)%list) with (fst c * tden args rho o (snd c) + fsum args rho o (l ++ m)%list).
  rewrite IH. change (fsum args rho o (c :: l)) with (fst c * tden args rho o (snd c) + fsum args rho o l). ring.
Qed.
Lemma words_snoc w l t : 0 <= w -> words_value w (l ++ [t])%list = words_value w l + 2 ^ (w * Z.of_nat (List.length l)) * t.
Proof.
  intros Hw. induction l as [|x l IH].
  - change (t + 2 ^ w * 0 = 0 + 2 ^ (w * 0) * t). rewrite Z.mul_0_r, Z.mul_0_r. change (2 ^ 0) with 1. ring.
  - cbn [app words_value List.length]. rewrite IH. replace (w * Z.of_nat (S (List.length l))) with (w + w * Z.of_nat (List.length l)) by lia.
    rewrite Z.pow_add_r by nia. ring.
Qed.
Lemma half_word F : In F tall -> fl_w F = half F + half F /\ (2 <= fl_n F)%nat.
Proof. intros H. repeat (destruct H as [<-|H]; [vm_compute; split; [reflexivity|repeat constructor]|]). destruct H. Qed.
(** the low words are at least the upper half of the highest of them *)
Lemma low_high F lo hi a : In F tall -> rep F lo hi a -> exists r, 0 <= r /\
  2 ^ half F * lowpart F a = lowmod F * (nth (fl_n F - 2) a 0 / 2 ^ half F) + r.
Proof.
  intros HT R. pose proof (half_word F HT) as (Hw & Hn). pose proof (half_ok F HT) as Hh. destruct R as (La & W & _).
  assert (L1 : List.length (firstn (fl_n F - 1) a) = S (fl_n F - 2)) by (rewrite firstn_length_le; lia).
  unfold lowpart. rewrite (words_value_split _ _ _ L1). rewrite <- Z.pow_mul_r by lia.
  assert (Nx : nth (fl_n F - 2) (firstn (fl_n F - 1) a) 0 = nth (fl_n F - 2) a 0).
  { rewrite <- (firstn_skipn (fl_n F - 1) a) at 2. rewrite app_nth1 by lia. reflexivity. }
  rewrite Nx, firstn_firstn. replace (Nat.min (fl_n F - 2) (fl_n F - 1)) with (fl_n F - 2)%nat by lia.
  pose proof (words_value_bound (fl_w F) (firstn (fl_n F - 2) a) ltac:(lia)) as Bd.
  assert (Bd' : 0 <= words_value (fl_w F) (firstn (fl_n F - 2) a)).
  { apply Bd. rewrite firstn_length_le by lia. intros i Hi. replace (nth i (firstn (fl_n F - 2) a) 0) with (nth i a 0); [apply W; lia|].
    rewrite <- (firstn_skipn (fl_n F - 2) a) at 1. rewrite app_nth1 by (rewrite firstn_length_le; lia). reflexivity. }
  clear Bd. set (x := nth (fl_n F - 2) a 0) in *. set (y := words_value (fl_w F) (firstn (fl_n F - 2) a)) in *. clearbody x y.
  assert (P : 0 < 2 ^ half F) by (apply pow2_pos; lia).
  assert (E : lowmod F = 2 ^ (fl_w F * Z.of_nat (fl_n F - 2)) * 2 ^ half F * 2 ^ half F).
  { unfold lowmod. rewrite <- !Z.pow_add_r by nia. f_equal. replace (Z.of_nat (fl_n F - 1)) with (Z.of_nat (fl_n F - 2) + 1) by lia. lia. }
  exists (2 ^ half F * (y + 2 ^ (fl_w F * Z.of_nat (fl_n F - 2)) * (x mod 2 ^ half F))).
  assert (P2 : 0 < 2 ^ (fl_w F * Z.of_nat (fl_n F - 2))) by (apply pow2_pos; nia).
  pose proof (Z.div_mod x (2 ^ half F) ltac:(lia)) as D. pose proof (Z.mod_pos_bound x (2 ^ half F) P) as M.
  split; [apply Z.mul_nonneg_nonneg; [lia|]; nia|]. rewrite E, D at 1. ring.
Qed.

Lemma top_half F a lo hi : In F tall -> rep F lo hi a -> top F a = nth (fl_n F - 1) a 0. Proof. reflexivity. Qed.
(** the shift of a product by whole multiples *)
Lemma sum_range k l M h x y : 0 < M -> 0 < h -> (exists r, 0 <= r /\ h * l = M * x + r) -> y = k * l / M - k * x / h ->
  (0 <= k -> 0 <= y) /\ (k <= 0 -> y <= 0).
Proof.
  intros HM Hh (r & Hr & E) ->.
  assert (D1 : k * x / h = (M * (k * x)) / (M * h)) by (symmetry; apply Z.div_mul_cancel_l; lia).
  assert (D2 : k * l / M = (h * (k * l)) / (M * h)) by (rewrite (Z.mul_comm M h); symmetry; apply Z.div_mul_cancel_l; lia).
  assert (E' : h * (k * l) = M * (k * x) + k * r) by (replace (h * (k * l)) with (k * (h * l)) by ring; rewrite E; ring).
  rewrite D1, D2, E'. split; intros K.
  - assert (M * (k * x) / (M * h) <= (M * (k * x) + k * r) / (M * h)) by (apply Z.div_le_mono; nia). lia.
  - assert ((M * (k * x) + k * r) / (M * h) <= M * (k * x) / (M * h)) by (apply Z.div_le_mono; nia). lia.
Qed.

Lemma small_run F lo hi fs a k : In F tall -> kpre (pre F) (pre_in F lo hi) (fl_w F) (pre_bounds F) (pre_facts F (extra F) ++ fs) = true ->
  rep F lo hi a -> is_i32 k ->
  exists rho o j, let e := fsum [VArr a; VInt k] rho 0 (extra F) in
    (forall cl, run_func Release cl (whole F) [VArr a; VInt k] = Ok ([], [VArr o; VInt k])) /\ any_rep F o /\
    value F o = value F a * k + fl_C F * carry F a - e - lowmod F * 2 ^ 64 * j /\ Z.abs j <= 2 ^ 40 /\
    (e = 0 -> carry F a = 0 -> (j = 0 <-> - 2 ^ 63 <= value F a * k / lowmod F < 2 ^ 63)) /\
    (e = 0 -> carry F a = 0 -> 0 <= top F a -> j = 0 -> forall md cl, run_func md cl (whole F) [VArr a; VInt k] = Ok ([], [VArr o; VInt k])) /\
    Forall (fun d => - 2 ^ 61 <= rho d <= 2 ^ 61) (cn_ds (names F)) /\
    Forall (fun c => (fst c | fsum [VArr a; VInt k] rho 0 (snd c))) fs.
Proof.
  intros HT K R Hk. pose proof (tall_all F HT) as HF. destruct (layout_facts F HF) as (Hn & Hw & Ht & _).
  destruct (pre_sound _ _ _ _ _ K [VArr a; VInt k]) as (rho & RUN & BD & FS).
  { unfold pre_in. repeat constructor; [apply rep_arg; auto|exists k; split; [reflexivity|exact Hk]]. }
  unfold pre_bounds in RUN, BD.
  assert (BD' : Forall (fun x => - 2 ^ 61 <= rho x <= 2 ^ 61) (cn_x (names F) :: cn_y (names F) :: cn_m (names F) :: cn_c (names F) :: cn_ds (names F))).
  { rewrite Forall_map in BD. exact BD. }
  clear BD. apply Forall_cons_iff in BD' as (Bx & BD). apply Forall_cons_iff in BD as (By & BD). apply Forall_cons_iff in BD as (Bm & BD). apply Forall_cons_iff in BD as (Bc & BD).
  apply Forall_app in FS as (FP & FS). unfold pre_facts in FP.
  apply Forall_cons_iff in FP as (F1 & FP). apply Forall_cons_iff in FP as (F2 & FP). apply Forall_cons_iff in FP as (F3 & FP). apply Forall_cons_iff in FP as (F4 & _).
  set (s := names F) in *. set (h := 2 ^ half F) in *. set (args := [VArr a; VInt k]) in *.
  destruct F1 as (q1 & F1), F2 as (q2 & F2), F3 as (q3 & F3), F4 as (q4 & F4). cbn [fst snd] in F1, F2, F3, F4. rewrite !Z.mul_0_r in *.
  change (fsum args rho 0 [(-1, TV (cn_x s)); (1, TX (XMul (XI 1) (XQ 0 (fl_n F - 2) (half F))))]) with (-1 * rho (cn_x s) + (1 * (k * (nth (fl_n F - 2) a 0 / h)) + 0)) in F1.
  change (fsum args rho 0 [(-1, TV (cn_m s)); (1, TX (XMul (XI 1) (XQ 0 (fl_n F - 1) (half F))))]) with (-1 * rho (cn_m s) + (1 * (k * (top F a / h)) + 0)) in F2.
  change (fsum args rho 0 [(-1, TV (cn_y s)); (- h, TV (cn_m s)); (1, TX (XMul (XI 1) (XW 0 (fl_n F - 1))))]) with
    (-1 * rho (cn_y s) + (- h * rho (cn_m s) + (1 * (k * top F a) + 0))) in F3.
  rewrite fsum_app, digits_value in F4 by lia. rewrite Z.mul_0_r, Z.pow_0_r, Z.mul_1_l in F4.
  change (fsum args rho 0 ((-1, TX (lowx F)) :: (lowmod F, TQ (cn_x s) (half F)) :: (lowmod F, TV (cn_c s)) :: extra F)) with
    (-1 * (k * xden args (vexp 0 (fl_w F) 0 (fl_n F - 1)) + fl_C F * xden args (cy F 0)) + (lowmod F * (rho (cn_x s) / h) + (lowmod F * rho (cn_c s) + fsum args rho 0 (extra F)))) in F4.
  pose proof R as (La & _ & _).
  rewrite (cy_den F args 0 a eq_refl), (vexp_den args 0 (fl_w F) a eq_refl) in F4 by lia. cbn [skipn] in F4. fold (lowpart F a) in F4.
  set (ws := map (fun d => Z.land (rho d) (2 ^ fl_w F - 1)) (cn_ds s)) in *. set (e := fsum args rho 0 (extra F)) in *.
  pose proof (names_ok F HT) as (_ & _ & Lds & _). fold s in Lds.
  assert (Lws : List.length ws = (fl_n F - 1)%nat) by (unfold ws; rewrite map_length; exact Lds).
  assert (Wb : forall i, (i < fl_n F - 1)%nat -> 0 <= nth i ws 0 < 2 ^ fl_w F).
  { intros i Hi. unfold ws. assert (G : forall l n, (n < List.length l)%nat -> 0 <= nth n (map (fun d => Z.land (rho d) (2 ^ fl_w F - 1)) l) 0 < 2 ^ fl_w F).
    { replace (2 ^ fl_w F - 1) with (Z.ones (fl_w F)) by (rewrite Z.ones_equiv; lia). intros l. induction l as [|d l IH]; intros n Hl; [cbn in Hl; lia|].
      destruct n; cbn [map nth]; [rewrite Z.land_ones by lia; apply Z.mod_pos_bound; lia|apply IH; cbn in Hl; lia]. }
    apply G. lia. }
  assert (Vw : 0 <= words_value (fl_w F) ws < lowmod F).
  { pose proof (words_value_bound (fl_w F) ws ltac:(lia)) as Z0. rewrite Lws, <- Z.pow_mul_r in Z0 by lia. apply Z0. exact Wb. }
  set (T := topval F rho). assert (ET : T = rho (cn_x s) / h + rho (cn_y s) + h * rho (cn_m s) + rho (cn_c s)) by reflexivity.
  destruct (wrap_lost T) as (j & Wj & Wz & Wabs).
  destruct (rep_value F _ _ a HF R) as (Va & Vl).
  assert (LM : 2 <= lowmod F) by (apply lowmod_pos; exact HF).
  assert (Hh : 0 < h /\ h <= 2 ^ 30). { pose proof (half_ok F HT). clear -HT. unfold h. clear h. repeat (destruct HT as [<-|HT]; [vm_compute; split; [reflexivity|discriminate]|]). destruct HT. }
  assert (A1 : lowmod F * (T - k * top F a) + words_value (fl_w F) ws = k * lowpart F a + fl_C F * carry F a - e).
  { rewrite ET. assert (k * top F a = rho (cn_y s) + h * rho (cn_m s)) by lia. nia. }
  set (o := (ws ++ [wrap 64 T])%list).
  assert (To : top F o = wrap 64 T) by (unfold top, o; rewrite <- Lws, app_nth2, Nat.sub_diag by lia; reflexivity).
  assert (Ro : any_rep F o).
  { split; [unfold o; rewrite app_length, Lws; cbn; lia|]. split; [intros i Hi; unfold o; rewrite app_nth1 by lia; now apply Wb|].
    rewrite To. unfold wrap. cbv zeta. pose proof (Z.mod_pos_bound T (2 ^ 64) ltac:(lia)). change (64 - 1) with 63. destruct (Z.ltb_spec (T mod 2 ^ 64) (2 ^ 63)); lia. }
  assert (Vo : value F o = value F a * k + fl_C F * carry F a - e - lowmod F * 2 ^ 64 * j).
  { unfold value at 1, o. rewrite words_snoc, Lws by lia. fold (lowmod F). rewrite Wj, Va.
    replace (lowmod F * (T - 2 ^ 64 * j)) with (lowmod F * (T - k * top F a) + lowmod F * (k * top F a) - lowmod F * 2 ^ 64 * j) by ring. lia. }
  assert (RF : forall md cl t, (forall en, Forall (fun d => lookup d en = Some (VInt (rho d))) (cn_x s :: cn_y s :: cn_m s :: cn_c s :: cn_ds s) -> eval md (top_expr F) en = Ok (VInt t)) ->
     run_func md cl (whole F) args = Ok ([], [VArr (ws ++ [t]); VInt k])).
  { intros md cl t HE. destruct (RUN md cl) as (en & Ex & En & Ep).
    rewrite (whole_cut F HT). unfold run_func. cbn [f_params f_body f_rets List.length Nat.eqb args].
    rewrite exec_list_app. change (f_params (pre F)) with ["self"; "rhs"] in Ex. rewrite Ex. cbn [bind].
    assert (En' : Forall (fun d => lookup d en = Some (VInt (rho d))) (cn_x s :: cn_y s :: cn_m s :: cn_c s :: cn_ds s)).
    { rewrite Forall_map in En. exact En. }
    change (f_params (pre F)) with ["self"; "rhs"] in Ep. inversion Ep as [|? ? ? ? E1 Ep']; subst. inversion Ep' as [|? ? ? ? E2 _]; subst.
    destruct (tail_runs F HT rho a k en La En' E1 E2 md cl t (HE en En')) as (en' & X1 & X2 & X3). rewrite X1. cbn [bind evals gets]. unfold get. rewrite X2, X3. reflexivity. }
  exists rho, o, j. cbv zeta. fold args e. split; [|split; [|split; [|split; [|split; [|split; [|split]]]]]].
  - intros cl. apply RF. intros en En. apply top_release; assumption.
  - exact Ro.
  - exact Vo.
  - assert (TB : Z.abs T <= 2 ^ 92).
    { assert (Xb : Z.abs (rho (cn_x s) / h) <= 2 ^ 61) by (apply div_abs; [lia|]; nia).
      assert (Z.abs (h * rho (cn_m s)) <= 2 ^ 91) by (rewrite Z.abs_mul; replace (2 ^ 91) with (2 ^ 30 * 2 ^ 61) by reflexivity; apply Z.mul_le_mono_nonneg; lia).
      rewrite ET. change (2 ^ 92) with (2 * 2 ^ 91). change (2 ^ 91) with (2 ^ 30 * 2 ^ 61) in *. lia. }
    change (2 ^ 92) with (2 ^ 28 * 2 ^ 64) in TB. change (2 ^ 40) with (4096 * 2 ^ 28). lia.
  - intros E0 C0. rewrite Wz. rewrite E0, C0 in A1. replace (value F a * k / lowmod F) with T; [tauto|].
    apply Z.div_unique with (words_value (fl_w F) ws); [lia|]. rewrite Va. lia.
  - intros E0 C0 T0 J0 md cl.
    assert (TR : - 2 ^ 63 <= T < 2 ^ 63) by (apply Wz; exact J0).
    assert (EW : wrap 64 T = T) by (rewrite Wj, J0; ring).
    unfold o. rewrite EW. apply RF. intros en En.
    rewrite E0, C0 in A1.
    assert (Xc : rho (cn_x s) / h + rho (cn_c s) = k * lowpart F a / lowmod F).
    { apply Z.div_unique with (words_value (fl_w F) ws); [lia|]. rewrite ET in A1. assert (k * top F a = rho (cn_y s) + h * rho (cn_m s)) by lia. nia. }
    assert (Ex : rho (cn_x s) = k * (nth (fl_n F - 2) a 0 / h)) by lia.
    destruct (sum_range k (lowpart F a) (lowmod F) h (nth (fl_n F - 2) a 0 / h) (rho (cn_c s))) as (C1 & C2); [lia|lia|exact (low_high F _ _ a HT R)|rewrite <- Ex; lia|].
    assert (N1 : 0 <= nth (fl_n F - 2) a 0 / h) by (apply Z.div_pos; [destruct R as (_ & W & _); apply W; lia|lia]).
    assert (N2 : 0 <= top F a / h) by (apply Z.div_pos; lia).
    pose proof (Z.div_mod (top F a) h ltac:(lia)) as DM. pose proof (Z.mod_pos_bound (top F a) h ltac:(lia)) as MB.
    assert (Em : rho (cn_m s) = k * (top F a / h)) by lia.
    assert (Ey : rho (cn_y s) = k * (top F a mod h)) by (assert (rho (cn_y s) = k * top F a - h * rho (cn_m s)) by lia; rewrite Em in *; nia).
    assert (Dx : (0 <= k -> 0 <= rho (cn_x s) / h) /\ (k <= 0 -> rho (cn_x s) / h <= 0)).
    { rewrite Ex. split; intros Ks; [apply Z.div_pos; [nia|lia]|]. apply Z.lt_succ_r. apply Z.div_lt_upper_bound; nia. }
    assert (S1 : 0 <= k -> 0 <= h * rho (cn_m s) /\ 0 <= rho (cn_y s)).
    { intros Ks. rewrite Em, Ey. split; [apply Z.mul_nonneg_nonneg; [lia|]|]; apply Z.mul_nonneg_nonneg; lia. }
    assert (S2 : k <= 0 -> h * rho (cn_m s) <= 0 /\ rho (cn_y s) <= 0).
    { intros Ks. rewrite Em, Ey. split; [apply Z.mul_nonneg_nonpos; [lia|]|]; apply Z.mul_nonpos_nonneg; lia. }
    fold T. apply top_checked; try assumption; fold s; fold h; fold T; rewrite ?ET in *;
      clear - TR C1 C2 Dx S1 S2; destruct Dx as (D1 & D2);
      revert TR C1 C2 D1 D2 S1 S2; generalize (h * rho (cn_m s)) as pm, (rho (cn_y s)) as py, (rho (cn_x s) / h) as px, (rho (cn_c s)) as pc; intros; lia.
  - exact BD.
  - exact FS.
Qed.

(** ** The theorem *)
Lemma clone_md md F f base p a b o b' fuel : lookup f (fl_tbl F) = Some (b_clone base p) -> In p ["a"; "rhs"; "b"] ->
  call md no_base (fl_tbl F) fuel base [a; b] = Ok ([], [o; b']) -> call md no_base (fl_tbl F) (S fuel) f [a; b] = Ok ([o], [a; b]).
Proof.
  intros L P R. cbn [call]. rewrite L. unfold b_clone.
  destruct P as [<-|[<-|[<-|[]]]]; evm; rewrite R; evm; reflexivity.
Qed.
Lemma release_or_panics F f args rets outs : rust_call Release (fl_tbl F) f args = Ok (rets, outs) -> or_panics F f args rets outs.
Proof. intros R. split; [exact R|]. destruct (checks_only_panic (fl_tbl F) f args) as [E|E]; [now right|left; now rewrite E]. Qed.
Lemma runs_or_panics F f args rets outs : runs F f args rets outs -> or_panics F f args rets outs.
Proof. intros R. apply release_or_panics. apply R. Qed.
Lemma whole_small F a k o : In F all_fields ->
  (forall cl, run_func Release cl (whole F) [VArr a; VInt k] = Ok ([], [VArr o; VInt k])) -> small_or_panics F "mul" a k o.
Proof.
  intros HF R. assert (L : lookup "F::small_mul_assign" (fl_tbl F) = Some (whole F)) by (apply has_fn; by_field HF).
  assert (C : forall n, call Release no_base (fl_tbl F) (S n) "F::small_mul_assign" [VArr a; VInt k] = Ok ([], [VArr o; VInt k])).
  { intros n. cbn [call]. rewrite L. apply R. }
  split; apply release_or_panics; unfold rust_call; [apply C|].
  eapply (clone_md Release F _ "F::small_mul_assign" "b"); [cbn [append]; by_field HF|cbn; tauto|apply C].
Qed.
Lemma whole_computes F a k o : In F all_fields ->
  (forall md cl, run_func md cl (whole F) [VArr a; VInt k] = Ok ([], [VArr o; VInt k])) -> computes_small F "mul" a k o.
Proof.
  intros HF R. apply (computes_small_intro F 1); [exact HF|cbn; tauto|lia|]. eapply body_runs; [apply has_fn; cbn [append]; by_field HF|exact R].
Qed.
Lemma computes_or_panics F a k o : computes_small F "mul" a k o -> small_or_panics F "mul" a k o.
Proof. intros (A & B). split; now apply runs_or_panics. Qed.

Lemma carry_tight F lo hi a : In F all_fields -> rep F lo hi a -> carry F a = 0 -> tight F a.
Proof.
  intros HF (L & W & _) C. split; [exact L|]. split; [exact W|]. unfold carry in C. pose proof (B_pos F HF) as P. unfold B in P.
  apply div_zero in C; lia.
Qed.
(** displaced carries and lost top bits cannot make up for each other in e521_1 *)
Lemma no_cancel_wide c x y z : Z.abs c <= 2 ^ 80 -> Z.abs x <= 2 ^ 10 -> Z.abs y <= 2 ^ 10 -> Z.abs z <= 2 ^ 10 ->
  (modulus e521_1 | c + (2 ^ 378 * x + (2 ^ 432 * y + 2 ^ 486 * z))) -> c = 0 /\ x = 0 /\ y = 0 /\ z = 0.
Proof.
  intros Hc Hx Hy Hz (q & D). change (modulus e521_1) with (2 ^ 521 - 1) in D.
  change (2 ^ 432) with (2 ^ 378 * 2 ^ 54) in D. change (2 ^ 486) with (2 ^ 378 * 2 ^ 108) in D. change (2 ^ 521) with (2 ^ 378 * 2 ^ 143) in D.
  change (2 ^ 10) with 1024 in *.
  assert (P : 2 ^ 378 = 2 ^ 82 * 2 ^ 296) by reflexivity. assert (P' : 0 < 2 ^ 296) by lia. revert D P P'. generalize (2 ^ 378) as M, (2 ^ 296) as M'. intros M M' D P P'.
  change (2 ^ 82) with (4 * 2 ^ 80) in P. assert (P80 : 0 < 2 ^ 80) by lia. revert Hc P P80. generalize (2 ^ 80) as N. intros N Hc P P80.
  assert (P54 : 2 ^ 54 = 18014398509481984) by reflexivity. assert (P108 : 2 ^ 108 = 18014398509481984 * 18014398509481984) by reflexivity.
  assert (P143 : 2 ^ 143 = 18014398509481984 * 18014398509481984 * 34359738368) by reflexivity. rewrite P54, P108, P143 in D. clear P54 P108 P143.
  assert (MN : 4 * N <= M) by nia.
  assert (q = 0) by nia. subst q. assert (E : c = M * (- (x + 18014398509481984 * y + 18014398509481984 * 18014398509481984 * z))) by lia.
  clear D.
  assert (U : x + 18014398509481984 * y + 18014398509481984 * 18014398509481984 * z = 0); [|rewrite U, Z.mul_0_r in E; lia].
  revert E. generalize (x + 18014398509481984 * y + 18014398509481984 * 18014398509481984 * z) as u. intros u E. clear - E MN Hc P80. nia.
Qed.
Lemma extra_521 args rho o : fsum args rho o (extra e521_1) =
  2 ^ 378 * (rho "d6" / 2 ^ 54 - rho "d5" / 2 ^ 54) + (2 ^ 432 * (rho "d7" / 2 ^ 54 - rho "d6" / 2 ^ 54) + 2 ^ 486 * (rho "d8" / 2 ^ 54 - rho "d7" / 2 ^ 54)).
Proof.
  change (fsum args rho o (extra e521_1)) with
    (- 2 ^ 378 * (rho "d5" / 2 ^ 54) + (2 ^ 378 * (rho "d6" / 2 ^ 54) + (- 2 ^ 432 * (rho "d6" / 2 ^ 54) + (2 ^ 432 * (rho "d7" / 2 ^ 54) +
      (- 2 ^ 486 * (rho "d7" / 2 ^ 54) + (2 ^ 486 * (rho "d8" / 2 ^ 54) + 0)))))). ring.
Qed.
Lemma eqmod_divide F x y : In F all_fields -> eqmod F x y -> (modulus F | y - x).
Proof.
  intros HF E. apply Z.mod_divide; [pose proof (modulus_pos F HF); lia|]. rewrite Zminus_mod. unfold eqmod in E. rewrite E, Z.sub_diag. apply Z.mod_0_l. pose proof (modulus_pos F HF); lia.
Qed.

(** the six fields whose top word can overflow, one of which is e521_1 *)
Lemma small_mul_five F a k : In F tall -> F <> e521_1 -> produced F a -> is_i32 k ->
  exists o, small_or_panics F "mul" a k o /\ any_rep F o /\ (eqmod F (value F o) (value F a * k) <-> small_exact F a k) /\
    (small_exact F a k -> computes_small F "mul" a k o /\ value F o = value F a * k).
Proof.
  intros HT N5 P Hk. pose proof (tall_all F HT) as HF.
  assert (Ex : extra F = []). { unfold extra. destruct (is_521 F) eqn:E; [|reflexivity]. exfalso. clear -HT E N5. repeat (destruct HT as [<-|HT]; [first [discriminate E|now apply N5]|]). destruct HT. }
  pose proof (proj1 (forallb_forall _ _) pre_checked F HT) as K. cbv beta in K. rewrite <- (app_nil_r (pre_facts F (extra F))) in K.
  pose proof (B_pos F HF) as BP.
  destruct (small_run F _ _ [] a k HT K P Hk) as (rho & o & j & R & Ro & V & J & Jf & Jr & _ & _).
  rewrite Ex in *. change (fsum [VArr a; VInt k] rho 0 []) with 0 in *. exists o.
  split; [now apply whole_small|]. split; [exact Ro|].
  assert (PM : modulus F = lowmod F * B F - fl_C F) by (unfold modulus; rewrite pow_nbits' by exact HF; reflexivity).
  assert (G : exists g, 2 ^ 64 = B F * g /\ 8 < g <= 2 ^ 64 /\ Z.gcd (modulus F) (fl_C F) = 1 /\ 2 ^ 110 < modulus F).
  { exists (2 ^ (64 - fl_tb F)). clear -HT. repeat (destruct HT as [<-|HT]; [vm_compute; repeat split; try discriminate; reflexivity|]). destruct HT. }
  destruct G as (g & Eg & Hg & Gc & Gp). rewrite Z.sub_0_r in V.
  (* the error is a small multiple of C *)
  assert (D : (modulus F | value F o - (value F a * k + fl_C F * (carry F a - g * j)))).
  { rewrite V, Eg. exists (- (g * j)). rewrite PM. ring. }
  assert (Cb : Z.abs (carry F a) <= 4) by now apply produced_carry.
  assert (X : eqmod F (value F o) (value F a * k) <-> carry F a - g * j = 0).
  { assert (X' : eqmod F (value F o) (value F a * k) <-> - (carry F a - g * j) = 0); [|rewrite X'; lia].
    apply (lost F (value F o) (value F a * k) (fl_C F)).
    - match goal with |- (_ | ?y) => replace y with (value F o - (value F a * k + fl_C F * (carry F a - g * j))) by ring end. exact D.
    - exact Gc.
    - apply Z.le_lt_trans with (2 ^ 64 * 2 ^ 40 + 4); [|change (2 ^ 110) with (2 ^ 64 * 2 ^ 46) in Gp; lia]. assert (Z.abs (g * j) <= 2 ^ 64 * 2 ^ 40) by (rewrite Z.abs_mul; apply Z.mul_le_mono_nonneg; lia). lia. }
  assert (X2 : carry F a - g * j = 0 <-> carry F a = 0 /\ j = 0) by (split; [intros; assert (j = 0) by nia; nia|intros (-> & ->); lia]).
  assert (X3 : small_exact F a k <-> carry F a = 0 /\ j = 0).
  { unfold small_exact. split; [intros (C0 & Rg & _); split; [exact C0|apply Jf; auto]|intros (C0 & J0); split; [exact C0|split; [apply Jf; auto|intros; contradiction]]]. }
  split; [rewrite X, X2, X3; reflexivity|]. rewrite X3. intros (C0 & J0). split.
  - apply whole_computes; [exact HF|]. apply Jr; auto. destruct (carry_tight F _ _ a HF P C0) as (_ & _ & T). lia.
  - rewrite V, C0, J0. ring.
Qed.
Lemma small_mul_521 a k : produced e521_1 a -> is_i32 k ->
  exists o, small_or_panics e521_1 "mul" a k o /\ any_rep e521_1 o /\ (eqmod e521_1 (value e521_1 o) (value e521_1 a * k) <-> small_exact e521_1 a k) /\
    (small_exact e521_1 a k -> computes_small e521_1 "mul" a k o /\ value e521_1 o = value e521_1 a * k).
Proof.
  intros P Hk. assert (HT : In e521_1 tall) by (cbn; tauto). assert (Cb : Z.abs (carry e521_1 a) <= 4) by (now apply produced_carry; [exact in_521|]).
  assert (G : forall o j rho, value e521_1 o = value e521_1 a * k + fl_C e521_1 * carry e521_1 a - fsum [VArr a; VInt k] rho 0 (extra e521_1) - lowmod e521_1 * 2 ^ 64 * j ->
    Z.abs j <= 2 ^ 40 -> Forall (fun d => - 2 ^ 61 <= rho d <= 2 ^ 61) (cn_ds (names e521_1)) ->
    eqmod e521_1 (value e521_1 o) (value e521_1 a * k) -> carry e521_1 a = 0 /\ j = 0 /\
      rho "d5" / 2 ^ 54 = rho "d6" / 2 ^ 54 /\ rho "d6" / 2 ^ 54 = rho "d7" / 2 ^ 54 /\ rho "d7" / 2 ^ 54 = rho "d8" / 2 ^ 54).
  { intros o j rho V J BD E. rewrite extra_521 in V. apply eqmod_divide in E; [|exact in_521].
    do 5 (apply Forall_cons_iff in BD as (_ & BD)). apply Forall_cons_iff in BD as (B5 & BD). apply Forall_cons_iff in BD as (B6 & BD). apply Forall_cons_iff in BD as (B7 & BD). apply Forall_cons_iff in BD as (B8 & _).
    assert (Bd : forall x, - 2 ^ 61 <= x <= 2 ^ 61 -> Z.abs (x / 2 ^ 54) <= 2 ^ 8) by (intros x Hx; apply div_abs; [lia|]; change (2 ^ 8 * 2 ^ 54) with (2 * 2 ^ 61); lia).
    apply Bd in B5, B6, B7, B8. clear Bd.
    destruct (no_cancel_wide (2 ^ 29 * j - carry e521_1 a) (rho "d6" / 2 ^ 54 - rho "d5" / 2 ^ 54) (rho "d7" / 2 ^ 54 - rho "d6" / 2 ^ 54) (rho "d8" / 2 ^ 54 - rho "d7" / 2 ^ 54)) as (C & X & Y & Z0); try lia.
    destruct E as (q & E). exists (q - 2 ^ 29 * j). change (fl_C e521_1) with 1 in V. change (lowmod e521_1) with (2 ^ 486) in V.
      change (modulus e521_1) with (2 ^ 521 - 1) in *. replace ((q - 2 ^ 29 * j) * (2 ^ 521 - 1)) with (q * (2 ^ 521 - 1) - 2 ^ 29 * 2 ^ 521 * j + 2 ^ 29 * j) by ring.
      rewrite <- E, V. change (2 ^ 29 * 2 ^ 521) with (2 ^ 486 * 2 ^ 64). ring. }
  destruct (Z.eq_dec (carry e521_1 a) 0) as [C0|C0].
  - assert (T : tight e521_1 a) by (eapply carry_tight; [exact in_521|exact P|exact C0]).
    destruct (small_run e521_1 0 (B e521_1 - 1) columns521 a k HT pre521_checked T Hk) as (rho & o & j & R & Ro & V & J & Jf & Jr & BD & FS).
    exists o. split; [apply whole_small; [exact in_521|exact R]|]. split; [exact Ro|].
    unfold columns521 in FS. apply Forall_app in FS as (C5 & FS). apply Forall_app in FS as (C6 & FS). apply Forall_app in FS as (C7 & C8).
    apply (column_ok a k rho _ 5) in C5; [|exact T|lia|reflexivity]. apply (column_ok a k rho _ 6) in C6; [|exact T|lia|reflexivity].
    apply (column_ok a k rho _ 7) in C7; [|exact T|lia|reflexivity]. apply (column_ok a k rho _ 8) in C8; [|exact T|lia|reflexivity].
    change (fsum [VArr a; VInt k] rho 0 []) with 0 in C5, C6. rewrite Z.sub_0_r in C5, C6.
    fold (column_carry k a 5) in C5. fold (column_carry k a 6) in C6.
    assert (A1 : forall c x y l, fsum [VArr a; VInt k] rho 0 (astray c x y ++ l)%list = 2 ^ c * (rho y / 2 ^ 54 - rho x / 2 ^ 54) + fsum [VArr a; VInt k] rho 0 l).
    { intros c x y l. change (fsum [VArr a; VInt k] rho 0 (astray c x y ++ l)%list) with
        (- 2 ^ c * (rho x / 2 ^ 54) + (2 ^ c * (rho y / 2 ^ 54) + fsum [VArr a; VInt k] rho 0 l)). ring. }
    assert (A0 : forall c x y, fsum [VArr a; VInt k] rho 0 (astray c x y) = 2 ^ c * (rho y / 2 ^ 54 - rho x / 2 ^ 54)).
    { intros c x y. change (fsum [VArr a; VInt k] rho 0 (astray c x y)) with (- 2 ^ c * (rho x / 2 ^ 54) + (2 ^ c * (rho y / 2 ^ 54) + 0)). ring. }
    rewrite A0 in C7. rewrite A1, A0 in C8. clear A0 A1.
    assert (S : (rho "d5" / 2 ^ 54 = rho "d6" / 2 ^ 54 /\ rho "d6" / 2 ^ 54 = rho "d7" / 2 ^ 54 /\ rho "d7" / 2 ^ 54 = rho "d8" / 2 ^ 54) <->
      (column_carry k a 5 = column_carry k a 6 /\ column_carry k a 6 = column_carry k a 7 /\ column_carry k a 7 = column_carry k a 8)).
    { rewrite <- C5, <- C6. clear - C7 C8. revert C7 C8. generalize (rho "d5" / 2 ^ 54) as c5, (rho "d6" / 2 ^ 54) as c6, (rho "d7" / 2 ^ 54) as c7, (rho "d8" / 2 ^ 54) as c8. intros c5 c6 c7 c8 C7 C8. split.
      - intros (E1 & E2 & E3). assert (Z1 : c6 - c5 = 0) by lia. assert (Z2 : c7 - c6 = 0) by lia. rewrite Z1, Z.mul_0_r, Z.sub_0_r in C7. rewrite Z1, Z2, !Z.mul_0_r, Z.add_0_l, Z.sub_0_r in C8.
        fold (column_carry k a 7) in C7. fold (column_carry k a 8) in C8. lia.
      - intros (E1 & E2 & E3). assert (Z1 : c6 - c5 = 0) by lia. rewrite Z1, Z.mul_0_r, ?Z.sub_0_r in C7. fold (column_carry k a 7) in C7.
        rewrite <- C7 in E2, E3. assert (Z2 : c7 - c6 = 0) by lia. rewrite Z1, Z2, !Z.mul_0_r in C8. rewrite Z.add_0_l in C8. rewrite Z.sub_0_r in C8. fold (column_carry k a 8) in C8. lia. }
    assert (X : small_exact e521_1 a k -> j = 0 /\ fsum [VArr a; VInt k] rho 0 (extra e521_1) = 0).
    { intros (_ & Rg & Cc). specialize (Cc eq_refl). apply S in Cc. destruct Cc as (E1 & E2 & E3).
      assert (E0 : fsum [VArr a; VInt k] rho 0 (extra e521_1) = 0) by (rewrite extra_521, E1, E2, E3; ring). split; [|exact E0]. apply (Jf E0 C0). exact Rg. }
    split; [split|].
    + intros E. destruct (G o j rho V J BD E) as (_ & J0 & E5). split; [exact C0|]. split; [|intros _; apply S; exact E5].
      apply Jf; [rewrite extra_521; destruct E5 as (-> & -> & ->); ring|exact C0|exact J0].
    + intros E. destruct (X E) as (J0 & E0). rewrite E0, J0, C0 in V. unfold eqmod. f_equal. rewrite V. ring.
    + intros E. destruct (X E) as (J0 & E0). split; [|rewrite E0, J0, C0 in V; rewrite V; ring].
      apply whole_computes; [exact in_521|]. apply Jr; auto. destruct T as (_ & _ & T). lia.
  - pose proof (proj1 (forallb_forall _ _) pre_checked e521_1 HT) as K. cbv beta in K. rewrite <- (app_nil_r (pre_facts e521_1 (extra e521_1))) in K.
    destruct (small_run e521_1 _ _ [] a k HT K P Hk) as (rho & o & j & R & Ro & V & J & Jf & Jr & BD & FS).
    exists o. split; [apply whole_small; [exact in_521|exact R]|]. split; [exact Ro|].
    split; [split|].
    + intros E. exfalso. apply C0. exact (proj1 (G o j rho V J BD E)).
    + intros (E & _). contradiction.
    + intros (E & _). contradiction.
Qed.
Lemma small_mul_exact F a k : In F all_fields -> produced F a -> is_i32 k ->
  exists o, small_or_panics F "mul" a k o /\ any_rep F o /\ (eqmod F (value F o) (value F a * k) <-> small_exact F a k) /\
    (small_exact F a k -> computes_small F "mul" a k o /\ value F o = value F a * k).
Proof.
  intros HF P Hk.
  assert (C : F = e521_1 \/ (In F tall /\ F <> e521_1) \/ (In F narrow_fields /\ F <> e521_1 /\ 2 ^ 32 <= 2 ^ (61 - fl_tb F))).
  { clear -HF. assert (N : forall F, fl_C F <> 1 -> F <> e521_1) by (intros G H E; subst G; apply H; reflexivity).
    repeat (destruct HF as [<-|HF]; [first [now left|right; left; split; [cbn; tauto|apply N; discriminate]|right; right; split; [cbn; tauto|split; [apply N; discriminate|vm_compute; discriminate]]]|]). destruct HF. }
  destruct C as [->|[(HT & N)|(HN & N & Q)]]; [now apply small_mul_521|now apply small_mul_five|].
  destruct (Z.eq_dec (carry F a) 0) as [C0|C0].
  - destruct (small_mul_narrow F a k HN (carry_tight F _ _ a HF P C0) Hk) as (o & R & V & Ro). exists o.
    split; [now apply computes_or_panics|]. split; [exact Ro|]. split; [|auto]. split; [|intros _; unfold eqmod; now rewrite V].
    intros _. split; [exact C0|]. split; [|intros; contradiction]. rewrite <- V. fold (lowmod F). rewrite <- (value_top F _ _ o HF Ro). destruct Ro as (_ & _ & T). lia.
  - destruct (small_mul_pending F a k HF N P Hk) as (o & R & Ro & W); [unfold is_i32 in Hk; change (2 ^ 32) with (2 * 2 ^ 31) in Q; lia|exact C0|]. exists o.
    split; [now apply computes_or_panics|]. split; [exact Ro|]. split; [split; [intros E; contradiction|intros (E & _); contradiction]|intros (E & _); contradiction].
Qed.
(** a pending carry spoils every product *)
Lemma small_mul_never F a k : In F all_fields -> produced F a -> is_i32 k -> carry F a <> 0 ->
  exists o, small_or_panics F "mul" a k o /\ any_rep F o /\ ~ eqmod F (value F o) (value F a * k).
Proof.
  intros HF P K C. destruct (small_mul_exact F a k HF P K) as (o & S & R & I & _). exists o. split; [exact S|]. split; [exact R|].
  intros E. apply I in E. apply C. apply E.
Qed.
