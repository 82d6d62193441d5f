(** Normalisation. *)
From Coq Require Import ZArith List String Lia Bool.
From Verif Require Import Lang Poly Kernel Fields Kfacts Ops Words.
From Verif Require Src_e221_3.
Import ListNotations.
Local Open Scope string_scope.
Local Open Scope Z_scope.

Ltac by_field H := repeat (destruct H as [<-|H]; [reflexivity|]); destruct H.

Lemma call_step F d f g args rets outs : lookup f (fl_tbl F) = Some g ->
  (forall md fuel, (d <= fuel)%nat -> run_func md (call md no_base (fl_tbl F) fuel) g args = Ok (rets, outs)) ->
  runsd (S d) F f args rets outs.
Proof. intros L H md [|k] Hf; [lia|]. cbn [call]. rewrite L. apply H. lia. Qed.
Lemma panic_step F d f g args : lookup f (fl_tbl F) = Some g ->
  (forall md fuel, (d <= fuel)%nat -> run_func md (call md no_base (fl_tbl F) fuel) g args = Panic) ->
  panicsd (S d) F f args.
Proof. intros L H md [|k] Hf; [lia|]. cbn [call]. rewrite L. apply H. lia. Qed.

(** symbolic execution of a method body: unfold the semantics, leave calls *)
Ltac evm := cbv beta iota zeta delta [run_func f_params f_body f_rets exec_list exec eval_args eval evals get gets
  lookup String.eqb Ascii.eqb Bool.eqb combine bind upd write_back bind_rets Nat.eqb List.length fst snd as_int as_arr].
(** run one call by its known behaviour *)
Ltac callee H := rewrite H by lia; evm.

(** a method whose text is the same in all nine files *)
Definition same (f : string) (g : func) : Prop := forall F, In F all_fields -> lookup f (fl_tbl F) = Some g.
Ltac same_tac := intros F H; by_field H.

Lemma same_small_add : same "F::small_add" Src_e221_3.f_small_add. Proof. same_tac. Qed.
Lemma same_ref_add_i32 : same "(&F)::add(i32)" Src_e221_3.f_ref_add_i32. Proof. same_tac. Qed.
Lemma same_small_mul : same "F::small_mul" Src_e221_3.f_small_mul. Proof. same_tac. Qed.
Lemma same_ref_mul_i32 : same "(&F)::mul(i32)" Src_e221_3.f_ref_mul_i32. Proof. same_tac. Qed.

Lemma ref_add_i32_runs F a b o t : In F all_fields ->
  runsd 1 F "F::small_add_assign" [a; b] [] [o; t] -> runsd 3 F "(&F)::add(i32)" [a; b] [o] [a; b].
Proof.
  intros H R. apply (call_step _ _ _ _ _ _ _ (same_ref_add_i32 F H)). intros md fuel Hf.
  unfold Src_e221_3.f_ref_add_i32. evm.
  assert (R2 : runsd 2 F "F::small_add" [a; b] [o] [a; b]).
  { apply (call_step _ _ _ _ _ _ _ (same_small_add F H)). intros md' fuel' Hf'.
    unfold Src_e221_3.f_small_add. evm. callee R. reflexivity. }
  callee R2. reflexivity.
Qed.
Lemma ref_mul_i32_runs F a b o t : In F all_fields ->
  runsd 1 F "F::small_mul_assign" [a; b] [] [o; t] -> runsd 3 F "(&F)::mul(i32)" [a; b] [o] [a; b].
Proof.
  intros H R. apply (call_step _ _ _ _ _ _ _ (same_ref_mul_i32 F H)). intros md fuel Hf.
  unfold Src_e221_3.f_ref_mul_i32. evm.
  assert (R2 : runsd 2 F "F::small_mul" [a; b] [o] [a; b]).
  { apply (call_step _ _ _ _ _ _ _ (same_small_mul F H)). intros md' fuel' Hf'.
    unfold Src_e221_3.f_small_mul. evm. callee R. reflexivity. }
  callee R2. reflexivity.
Qed.

(** multiplying the modulus by -1, 0 or 1 *)
Definition mod_mul_check (F : fld) (k : Z) : bool :=
  match run_func Debug (fun _ _ => Stuck) (fn F "F::small_mul_assign") [VArr (to_words F (modulus F)); VInt k],
        run_func Release (fun _ _ => Stuck) (fn F "F::small_mul_assign") [VArr (to_words F (modulus F)); VInt k] with
  | Ok ([], [VArr l; VInt k1]), Ok ([], [VArr l'; VInt k2]) => 
      (if list_eq_dec Z.eq_dec l (to_words F (k * modulus F)) then true else false) &&
      (if list_eq_dec Z.eq_dec l' (to_words F (k * modulus F)) then true else false) && (k1 =? k) && (k2 =? k)
  | _, _ => false
  end.

(** functions called by a statement *)
Fixpoint callees (s : stmt) : list string :=
  match s with
  | SCall _ f _ => [f]
  | SFor _ _ _ b => flat_map callees b
  | _ => []
  end.
Lemma stmt_ind' (P : stmt -> Prop) :
  (forall x e, P (SLet x e)) -> (forall a i e, P (SSet a i e)) -> (forall ds f l, P (SCall ds f l)) ->
  (forall x lo hi b, Forall P b -> P (SFor x lo hi b)) -> (forall x r lo hi, P (SGenRange x r lo hi)) ->
  (forall f s, P (SPushStr f s)) -> (forall f u p b e, P (SPushHex f u p b e)) -> forall s, P s.
Proof.
  intros H1 H2 H3 H4 H5 H6 H7. fix IH 1. intros [x e|a i e|ds f l|x lo hi b|x r lo hi|f s|f u p b e];
    [apply H1|apply H2|apply H3| |apply H5|apply H6|apply H7].
  apply H4. induction b as [|s b IHb]; [constructor|]. constructor; [apply IH|exact IHb].
Qed.
Lemma exec_list_eq md cl l en : (fix go (l : list stmt) (en : env) : res env :=
      match l with [] => Ok en | s :: t => bind (exec md cl s en) (go t) end) l en = exec_list md cl l en.
Proof. revert en. induction l as [|s l IH]; intros en; [reflexivity|].
  cbn [exec_list]. destruct (exec md cl s en); cbn [bind]; [apply IH|reflexivity|reflexivity]. Qed.

Lemma exec_callees md cl cl' s : (forall f, In f (callees s) -> forall vs, cl f vs = cl' f vs) ->
  forall en, exec md cl s en = exec md cl' s en.
Proof.
  revert s. apply (stmt_ind' (fun s => (forall f, In f (callees s) -> forall vs, cl f vs = cl' f vs) ->
    forall en, exec md cl s en = exec md cl' s en)); try reflexivity.
  - intros ds f l H en. cbn [exec]. destruct (eval_args md l en); simpl; auto.
    rewrite (H f) by (simpl; auto). reflexivity.
  - intros x lo hi b IH H en. cbn [exec].
    destruct (bind (eval md lo en) as_int) as [a| |]; cbn [bind]; auto.
    destruct (bind (eval md hi en) as_int) as [c| |]; cbn [bind]; auto.
    assert (E : forall en, exec_list md cl b en = exec_list md cl' b en).
    { clear -IH H. cbn [callees] in H. induction IH as [|s b Hs IH IH2]; intros en; cbn [exec_list]; auto.
      cbn [flat_map] in H. rewrite Hs by (intros; apply H, in_or_app; auto).
      destruct (exec md cl' s en); cbn [bind]; auto. apply IH2. intros; apply H, in_or_app; auto. }
    generalize (Z.to_nat (c - a)) as n. intros n. revert a en.
    induction n as [|n IHn]; intros a en; auto.
    rewrite (exec_list_eq md cl), (exec_list_eq md cl'), E.
    destruct (exec_list md cl' b (upd x (VInt a) en)); cbn [bind]; auto.
Qed.
Lemma exec_list_callees md cl cl' l : (forall f, In f (flat_map callees l) -> forall vs, cl f vs = cl' f vs) ->
  forall en, exec_list md cl l en = exec_list md cl' l en.
Proof.
  induction l as [|s l IH]; intros H en; cbn [exec_list]; auto. cbn [flat_map] in H.
  rewrite (exec_callees md cl cl') by (intros; apply H, in_or_app; auto).
  destruct (exec md cl' s en); cbn [bind]; auto. apply IH. intros; apply H, in_or_app; auto.
Qed.
Lemma run_func_callees md cl cl' g vs : (forall f, In f (flat_map callees (f_body g)) -> forall vs, cl f vs = cl' f vs) ->
  run_func md cl g vs = run_func md cl' g vs.
Proof. intros H. unfold run_func. rewrite (exec_list_callees md cl cl' _ H). reflexivity. Qed.

(** static call depth: beyond it the fuel is irrelevant *)
Fixpoint depth_le (tbl : list (string * func)) (d : nat) (f : string) : bool :=
  match lookup f tbl with
  | None => true
  | Some g => match d with O => false | S k => forallb (depth_le tbl k) (flat_map callees (f_body g)) end
  end.
Lemma depth_fuel md base tbl d : forall f, depth_le tbl d f = true -> forall fuel fuel' vs, (d <= fuel)%nat -> (d <= fuel')%nat ->
  call md base tbl fuel f vs = call md base tbl fuel' f vs.
Proof.
  induction d as [|d IH]; intros f H fuel fuel' vs L L'; cbn [depth_le] in H;
    destruct (lookup f tbl) as [g|] eqn:E; try discriminate.
  - destruct fuel, fuel'; cbn [call]; rewrite E; reflexivity.
  - rewrite forallb_forall in H. destruct fuel, fuel'; try lia. cbn [call]. rewrite E.
    apply run_func_callees. intros f' Hf' vs'. apply IH; auto; lia.
  - destruct fuel, fuel'; cbn [call]; rewrite E; reflexivity.
Qed.

Lemma mod_mul_checked : forallb (fun F => has "F::small_mul_assign" F && depth_le (fl_tbl F) 1 "F::small_mul_assign" &&
   forallb (mod_mul_check F) [-1; 0; 1]) all_fields = true.
Proof. vm_cast_no_check (eq_refl true). Qed.
Lemma mod_mul_runs F k : In F all_fields -> -1 <= k <= 1 ->
  runsd 1 F "F::small_mul_assign" [VArr (to_words F (modulus F)); VInt k] [] [VArr (to_words F (k * modulus F)); VInt k].
Proof.
  intros HF Hk. pose proof (all_chk _ mod_mul_checked F HF) as K. cbn beta in K.
  rewrite !andb_true_iff in K. destruct K as [[K0 KD] K]. rewrite forallb_forall in K.
  specialize (K k). assert (In k [-1; 0; 1]) as Ik by (simpl; lia). specialize (K Ik). unfold mod_mul_check in K.
  pose proof (has_fn _ _ K0) as L.
  cbn [depth_le] in KD. rewrite L in KD.
  assert (NC : forall f, In f (flat_map callees (f_body (fn F "F::small_mul_assign"))) -> False).
  { intros f Hf. rewrite forallb_forall in KD. specialize (KD f Hf).
    revert KD. cbn [depth_le]. revert f Hf. clear -HF. 
    assert (flat_map callees (f_body (fn F "F::small_mul_assign")) = []) as -> by by_field HF. simpl. tauto. }
  eapply body_runs; [exact L|]. intros md cl.
  rewrite (run_func_callees md cl (fun _ _ => Stuck)) by (intros f Hf; destruct (NC f Hf)).
  destruct (run_func Debug _ _ _) as [[[|] [|[|l] [|[k1|] [|]]]]| |] eqn:ED; try discriminate.
  destruct (run_func Release _ _ _) as [[[|] [|[|l'] [|[k2|] [|]]]]| |] eqn:ER; try discriminate.
  rewrite !andb_true_iff in K. destruct K as [[[Ka Kb] Kc] Kd].
  apply Z.eqb_eq in Kc. apply Z.eqb_eq in Kd. subst k1 k2.
  destruct (list_eq_dec _ l _) as [->|]; [|discriminate]. destruct (list_eq_dec _ l' _) as [->|]; [|discriminate].
  destruct md; assumption.
Qed.

(** the array constant returned by a method without arguments *)
Definition lit (F : fld) (f : string) : list Z :=
  match lookup f (fl_tbl F) with Some (mkfunc _ _ [ELit l]) => l | _ => [] end.
Definition words_eqb (a b : list Z) : bool := if list_eq_dec Z.eq_dec a b then true else false.
Lemma words_eqb_eq a b : words_eqb a b = true -> a = b.
Proof. unfold words_eqb. destruct (list_eq_dec _ a b); congruence. Qed.
Lemma lits_checked : forallb (fun F =>
  words_eqb (lit F "F::zero") (to_words F 0) && words_eqb (lit F "F::one") (to_words F 1) &&
  words_eqb (lit F "F::m_one") (to_words F (modulus F - 1)) && words_eqb (lit F "F::modulus") (to_words F (modulus F))) all_fields = true.
Proof. vm_cast_no_check (eq_refl true). Qed.
Lemma lits_ok F : In F all_fields -> lit F "F::zero" = to_words F 0 /\ lit F "F::one" = to_words F 1 /\
  lit F "F::m_one" = to_words F (modulus F - 1) /\ lit F "F::modulus" = to_words F (modulus F).
Proof.
  intros H. pose proof (all_chk _ lits_checked F H) as K. cbn beta in K. rewrite !andb_true_iff in K.
  destruct K as [[[K1 K2] K3] K4]. repeat split; apply words_eqb_eq; assumption.
Qed.
Lemma lit_modulus F : In F all_fields -> lit F "F::modulus" = to_words F (modulus F).
Proof. intros H. apply lits_ok; auto. Qed.

(** the body of [normalize], up to the name of a local *)
Definition b_normalize (F : fld) (x : string) : func := mkfunc ["self"] [
    SCall [x] "(&F)::add(i32)" [AVal (EVar "self"); AVal (ECast I32 (EInt (fl_C F)))];
    SCall ["offset"] "(&F)::mul(i32)" [AVal (ELit (lit F "F::modulus"));
       AVal (ECast I32 (EShr (EIdx (EVar x) (EInt (Z.of_nat (fl_n F - 1)))) (EInt (fl_tb F))))];
    SCall [] "F::sub_assign(&F)" [AMut "self"; AVal (EVar "offset")] ] [].
Lemma normalize_body F : In F all_fields ->
  lookup "F::normalize" (fl_tbl F) = Some (b_normalize F (if is_521 F then "plusone" else "plusc")).
Proof. intros H. by_field H. Qed.

Lemma wrap_small b z : 1 < b -> - 2 ^ (b - 1) <= z < 2 ^ (b - 1) -> wrap b z = z.
Proof.
  intros Hb H. unfold wrap. assert (2 ^ b = 2 * 2 ^ (b - 1)).
  { rewrite <- Z.pow_succ_r by lia. f_equal. lia. }
  destruct (Z_lt_ge_dec z 0).
  - assert (z mod 2 ^ b = z + 2 ^ b). { rewrite <- (Z.mod_add z 1) by lia. rewrite Z.mul_1_l. apply Z.mod_small. lia. }
    rewrite H1. destruct (Z.ltb_spec (z + 2 ^ b) (2 ^ (b - 1))); lia.
  - rewrite Z.mod_small by lia. destruct (Z.ltb_spec z (2 ^ (b - 1))); lia.
Qed.
Lemma znth_nth l n : (n < List.length l)%nat -> znth l (Z.of_nat n) = Some (nth n l 0).
Proof.
  intros H. unfold znth. destruct (Z.ltb_spec (Z.of_nat n) 0); [lia|]. rewrite Nat2Z.id.
  apply nth_error_nth'. exact H.
Qed.
Lemma shamt_ok md n : 0 <= n < 64 -> shamt md n = Ok n.
Proof. intros H. unfold shamt. destruct (Z.leb_spec 0 n), (Z.ltb_spec n 64); auto; lia. Qed.

(** the number of multiples of p that normalisation removes *)
Definition norm_k (F : fld) (a : list Z) : Z := (folded F a + fl_C F) / 2 ^ nbits F.

Lemma normalize_runs F a : In F all_fields -> any_rep F a ->
  exists o, runsd 4 F "F::normalize" [VArr a] [] [VArr o] /\ rep F (- B F - 1) (B F) o /\
   -1 <= norm_k F a <= 1 /\ folded F a + fl_C F < lowmod F * (B F + 1) /\
   value F o = (if norm_k F a =? 1 then folded F a - modulus F
                else if norm_k F a =? 0 then folded F a else folded F a - 2 * fl_C F).
Proof.
  intros HF A. destruct (layout_facts F HF) as (Ln & Lw & Lt & Lc & LB & _). fold (B F) in LB.
  destruct (small_add_ok F a (fl_C F) HF A) as (pl & R1 & Rp & Vp & _). { unfold is_i32. lia. }
  assert (Ek : carry F pl = norm_k F a). { rewrite (carry_value F _ _ pl HF Rp), Vp. reflexivity. }
  assert (Hk : -1 <= norm_k F a <= 1).
  { rewrite <- Ek. unfold carry. destruct Rp as (_ & _ & T). fold (B F). split.
    - apply Z.div_le_lower_bound; lia.
    - apply Z.lt_succ_r. apply Z.div_lt_upper_bound; lia. }
  pose proof (mod_mul_runs F (norm_k F a) HF Hk) as R2.
  assert (Ao : any_rep F (to_words F (norm_k F a * modulus F))).
  { pose proof (lowmod_pos F HF). pose proof (small_tops_ok F HF). unfold modulus. rewrite pow_nbits' by auto.
    apply to_words_rep; auto.
    assert (C : 0 < lowmod F * B F - fl_C F <= lowmod F * B F) by nia. split.
    - apply Z.div_le_lower_bound; nia.
    - apply Z.lt_succ_r. apply Z.div_lt_upper_bound; nia. }
  destruct (sub_ok F a _ HF A Ao) as (o & R3 & Ro & Vo).
  exists o. split; [|split; [exact Ro|split; [exact Hk|split]]].
  - pose proof (ref_add_i32_runs F _ _ _ _ HF R1) as R1'. pose proof (ref_mul_i32_runs F _ _ _ _ HF R2) as R2'.
    apply (call_step _ _ _ _ _ _ _ (normalize_body F HF)). intros md fuel Hf.
    assert (EC : cast I32 (fl_C F) = fl_C F) by (apply wrap_small; lia).
    assert (EK : cast I32 (Z.shiftr (top F pl) (fl_tb F)) = norm_k F a).
    { rewrite Z.shiftr_div_pow2 by lia. fold (carry F pl). rewrite Ek. apply wrap_small; lia. }
    assert (EN : znth pl (Z.of_nat (fl_n F - 1)) = Some (top F pl)).
    { apply znth_nth. destruct Rp as (-> & _). lia. }
    unfold b_normalize. rewrite lit_modulus by auto. destruct (is_521 F); evm; rewrite EC; callee R1'; rewrite EN; rewrite shamt_ok by lia;
      rewrite EK; callee R2'; callee R3; reflexivity.
  - rewrite <- Vp. destruct (rep_value F _ _ pl HF Rp) as [E1 E2]. rewrite E1. destruct Rp as (_ & _ & T). nia.
  - rewrite Vo. pose proof (modulus_pos F HF) as (MP & MC & _).
    assert (N2 : 0 < 2 ^ nbits F) by (apply Z.pow_pos_nonneg; [lia|pose proof (nbits_pos F HF); lia]).
    assert (CV : carry F (to_words F (norm_k F a * modulus F)) = (norm_k F a * modulus F) / 2 ^ nbits F).
    { rewrite (carry_value F _ _ _ HF Ao), to_words_value; auto. }
    unfold folded at 2. rewrite CV, to_words_value by auto.
    assert (norm_k F a = 1 \/ norm_k F a = 0 \/ norm_k F a = -1) as [->|[->| ->]] by lia; cbn [Z.eqb Pos.eqb];
      rewrite ?Z.mul_1_l, ?Z.mul_0_l.
    + rewrite (Z.div_small (modulus F)) by (unfold modulus in *; lia). ring.
    + rewrite Z.div_0_l by lia. ring.
    + replace (-1 * modulus F / 2 ^ nbits F) with (-1); [ring|].
      apply (Z.div_unique _ _ _ (2 ^ nbits F - modulus F)); unfold modulus in *; lia.
Qed.

(** normalisation reaches the canonical representative exactly when the folded
    value is not negative *)
Lemma normalize_ok F a : In F all_fields -> any_rep F a -> 0 <= folded F a ->
  runsd 4 F "F::normalize" [VArr a] [] [VArr (to_words F (value F a mod modulus F))].
Proof.
  intros HF A Hf. destruct (normalize_runs F a HF A) as (o & R & Ro & Hk & Hu & Vo).
  destruct (layout_facts F HF) as (Ln & Lw & Lt & Lc & LB & _). fold (B F) in LB.
  pose proof (modulus_pos F HF) as (MP & MC & _). pose proof (lowmod_pos F HF) as LM.
  assert (N2 : 0 < 2 ^ nbits F) by (apply Z.pow_pos_nonneg; [lia|pose proof (nbits_pos F HF); lia]).
  assert (V : value F o = value F a mod modulus F).
  { assert (E : eqmod F (value F o) (value F a) /\ 0 <= value F o < modulus F).
    { unfold norm_k in *. pose proof (Z.div_mod (folded F a + fl_C F) (2 ^ nbits F) ltac:(lia)) as D.
      pose proof (Z.mod_pos_bound (folded F a + fl_C F) (2 ^ nbits F) N2) as Bd.
      set (k := (folded F a + fl_C F) / 2 ^ nbits F) in *.
      assert (0 <= k) by (apply Z.div_pos; lia).
      rewrite Vo. pose proof (folded_eqmod F a) as FE.
      assert (k = 1 \/ k = 0) as [Ek|Ek] by lia; rewrite Ek in *; cbn [Z.eqb Pos.eqb]; split.
      - refine (eq_trans _ FE). apply divide_eqmod. exists (-1). ring.
      - unfold modulus in *. rewrite pow_nbits' in * by auto. nia.
      - exact FE.
      - unfold modulus in *. lia. }
    destruct E as [E1 E2]. rewrite <- E1. symmetry. apply Z.mod_small. exact E2. }
  rewrite <- V, <- (rep_unique F _ _ o HF Ro). exact R.
Qed.
Lemma normalize_nonneg F a lo hi : In F all_fields -> rep F lo hi a -> 0 <= lo -> hi <= 2 ^ 63 - 1 ->
  runsd 4 F "F::normalize" [VArr a] [] [VArr (to_words F (value F a mod modulus F))].
Proof.
  intros HF A L U. apply normalize_ok; auto.
  - eapply rep_weaken; [exact A|lia|lia].
  - eapply nonneg_folded; eauto.
Qed.
Lemma norm_canonical F z : In F all_fields -> canonical F (to_words F (z mod modulus F)).
Proof. intros H. apply to_words_canonical; auto. apply Z.mod_pos_bound. apply modulus_pos; auto. Qed.
