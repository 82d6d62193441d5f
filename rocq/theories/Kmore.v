(** A second checker on top of Kernel.v.  Besides running a straight-line function
    on intervals it checks linear facts between the arguments, the output and the
    values that the function's own variables hold when it ends.  Kernel.v can only
    say that the output is congruent to an expression in the arguments; this is
    for code whose output is off by something its carries lose. *)
From Coq Require Import ZArith List String Lia Bool.
From Verif Require Import Lang Poly Kernel.
Import ListNotations.
Local Open Scope string_scope.
Local Open Scope Z_scope.

Inductive fterm :=
| TX (N : sexp)               (* an expression in the arguments *)
| TV (x : string)             (* the last value of a variable *)
| TQ (x : string) (k : Z)     (* floor(that / 2^k) *)
| TO.                         (* the number in the output words *)
(** a sum of multiples of terms, claimed to be a multiple of the modulus *)
Definition fact := (Z * list (Z * fterm))%type.

Definition tden (args : list val) (rho : string -> Z) (o : Z) (t : fterm) : Z :=
  match t with TX N => xden args N | TV x => rho x | TQ x k => rho x / 2 ^ k | TO => o end.
Definition fsum (args : list val) (rho : string -> Z) (o : Z) (l : list (Z * fterm)) : Z :=
  fold_right (fun ct acc => fst ct * tden args rho o (snd ct) + acc) 0 l.

Definition tpoly (os : list aobj) (ae : aenv) (o : poly) (t : fterm) (s : st) : option (poly * st) :=
  match t with
  | TX N => match sav os N s with Some (p, s') => Some (ap p, s') | None => None end
  | TV x => match lookup x ae with Some (OInt v) => Some (ap v, s) | _ => None end
  | TQ x k => match lookup x ae with
              | Some (OInt v) => if 0 <=? k then let q := qv v k s in Some (ap (fst q), snd q) else None
              | _ => None end
  | TO => Some (o, s)
  end.
Fixpoint fpoly (os : list aobj) (ae : aenv) (o : poly) (l : list (Z * fterm)) (s : st) : option (poly * st) :=
  match l with
  | [] => Some ([], s)
  | (c, t) :: r => match tpoly os ae o t s with
                   | Some (p, s1) => match fpoly os ae o r s1 with
                                     | Some (q, s2) => Some (padd (pscale c p) q, s2) | None => None end
                   | None => None end
  end.
Fixpoint fchk (os : list aobj) (ae : aenv) (o : poly) (fs : list fact) (s : st) : option st :=
  match fs with
  | [] => Some s
  | (m, l) :: r => match fpoly os ae o l s with
                   | Some (p, s1) => if pdivisible m p then fchk os ae o r s1 else None
                   | None => None end
  end.
Definition fbnd (ae : aenv) (b : string * Z * Z) : bool :=
  match lookup (fst (fst b)) ae with
  | Some (OInt v) => (snd (fst b) <=? alo v) && (ahi v <=? snd b)
  | _ => false end.

Definition kfacts (fn : func) (ks : kspec) (bs : list (string * Z * Z)) (fs : list fact) : bool :=
  let ds := ks_in ks in
  params_ok fn ds &&
  match f_rets fn with [] => true | _ => false end &&
  match nth_error (f_params fn) (ks_out ks) with
  | None => false
  | Some xo =>
      forallb (fun p => String.eqb p xo || negb (existsb (fun s => String.eqb p (target s)) (f_body fn))) (f_params fn) &&
      match sexecs (ks_w ks) (ks_hints ks) (init_objs 1 ds) (f_body fn) (fst (kinit fn ds)) (snd (kinit fn ds)) with
      | SOk ae s =>
          match lookup xo ae, nth_error ds (ks_out ks) with
          | Some (OArr vs open), Some (DArr bs0 open') =>
              match fchk (init_objs 1 ds) ae (wsum_p (ks_w ks) vs) fs s with
              | Some s' =>
                  tbl_ok (Pos.of_nat (1 + total ds)) (s_tbl s') && inB (ks_bounds ks) vs &&
                  Nat.eqb (List.length vs) (List.length bs0) && Bool.eqb open open' && forallb (fbnd ae) bs
              | None => false
              end
          | _, _ => false
          end
      | _ => false
      end
  end.

Lemma tpoly_ext os ae o t s p s' : tpoly os ae o t s = Some (p, s') -> ext s s'.
Proof.
  destruct t as [N|x|x k|]; cbn [tpoly].
  - destruct (sav os N s) as [(q, s1)|] eqn:E; [|discriminate]. intros [= <- <-]. eapply sav_ext; eauto.
  - destruct (lookup x ae) as [[v|]|]; try discriminate. intros [= <- <-]. apply ext_refl.
  - destruct (lookup x ae) as [[v|]|]; try discriminate. destruct (0 <=? k); [|discriminate]. intros [= <- <-]. apply qv_ext.
  - intros [= <- <-]. apply ext_refl.
Qed.
Lemma fpoly_ext os ae o l : forall s p s', fpoly os ae o l s = Some (p, s') -> ext s s'.
Proof.
  induction l as [|(c, t) l IH]; intros s p s'; cbn [fpoly]; [intros [= <- <-]; apply ext_refl|].
  destruct (tpoly os ae o t s) as [(q, s1)|] eqn:E; [|discriminate]. destruct (fpoly os ae o l s1) as [(q', s2)|] eqn:E'; [|discriminate].
  intros [= <- <-]. eapply ext_trans; [eapply tpoly_ext; eauto|eauto].
Qed.
Lemma fchk_ext os ae o fs : forall s s', fchk os ae o fs s = Some s' -> ext s s'.
Proof.
  induction fs as [|(m, l) fs IH]; intros s s'; cbn [fchk]; [intros [= <-]; apply ext_refl|].
  destruct (fpoly os ae o l s) as [(q, s1)|] eqn:E; [|discriminate]. destruct (pdivisible m q); [|discriminate].
  intros H. eapply ext_trans; [eapply fpoly_ext; eauto|eauto].
Qed.

Section Meaning.
  Variable r : positive -> Z.
  Variable rs : string -> list Z.
  Variable os : list aobj.
  Variable rvs : list (list Z * val).
  Hypothesis Hos : Forall2 (fun o rv => obj_rel r (fst rv) o (snd rv)) os rvs.
  Variable ae : aenv.
  Variable en : env.
  Hypothesis ER : env_rel r rs ae en.
  Definition rho_of (x : string) : Z := match lookup x ae with Some (OInt v) => peval r (ap v) | _ => 0 end.
  Lemma rho_holds x v : lookup x ae = Some (OInt v) -> holds r v (rho_of x).
  Proof.
    intros L. unfold rho_of. rewrite L. destruct (ER _ _ L) as (u & _ & z & _ & Hz). destruct Hz as (E & B). split; [reflexivity|]. rewrite <- E. exact B.
  Qed.
  Lemma tpoly_sound o t s p s' : tpoly os ae o t s = Some (p, s') -> models r s' -> peval r p = tden (map snd rvs) rho_of (peval r o) t.
  Proof.
    destruct t as [N|x|x k|]; cbn [tpoly tden].
    - destruct (sav os N s) as [(q, s1)|] eqn:E; [|discriminate]. intros [= <- <-] M. symmetry. exact (proj1 (sav_sound r os rvs Hos _ _ _ _ E M)).
    - destruct (lookup x ae) as [[v|]|] eqn:L; try discriminate. intros [= <- <-] _. symmetry. exact (proj1 (rho_holds x v L)).
    - destruct (lookup x ae) as [[v|]|] eqn:L; try discriminate. destruct (Z.leb_spec 0 k) as [K|]; [|discriminate]. intros [= <- <-] M.
      symmetry. exact (proj1 (qv_sound r v k s _ K M (rho_holds x v L))).
    - intros [= <- <-] _. reflexivity.
  Qed.
  Lemma fpoly_sound o l : forall s p s', fpoly os ae o l s = Some (p, s') -> models r s' -> peval r p = fsum (map snd rvs) rho_of (peval r o) l.
  Proof.
    induction l as [|(c, t) l IH]; intros s p s'; cbn [fpoly]; [intros [= <- <-] _; reflexivity|].
    destruct (tpoly os ae o t s) as [(q, s1)|] eqn:E; [|discriminate]. destruct (fpoly os ae o l s1) as [(q', s2)|] eqn:E'; [|discriminate].
    intros [= <- <-] M. rewrite padd_eval, pscale_eval, (IH _ _ _ E' M), (tpoly_sound _ _ _ _ _ E (models_ext _ _ _ (fpoly_ext _ _ _ _ _ _ _ E') M)). reflexivity.
  Qed.
  Lemma fchk_sound o fs : forall s s', fchk os ae o fs s = Some s' -> models r s' ->
    Forall (fun f => (fst f | fsum (map snd rvs) rho_of (peval r o) (snd f))) fs.
  Proof.
    induction fs as [|(m, l) fs IH]; intros s s'; cbn [fchk]; [constructor|].
    destruct (fpoly os ae o l s) as [(q, s1)|] eqn:E; [|discriminate]. destruct (pdivisible m q) eqn:D; [|discriminate].
    intros H M. constructor; [|eauto]. cbn [fst snd].
    rewrite <- (fpoly_sound _ _ _ _ _ E (models_ext _ _ _ (fchk_ext _ _ _ _ _ _ H) M)).
    destruct (pdivisible_sound r _ _ D) as (k & K). exists k. rewrite K. ring.
  Qed.
End Meaning.

Theorem facts_sound fn ks bnds fs : kfacts fn ks bnds fs = true ->
  forall args, Forall2 arg_ok (ks_in ks) args ->
  exists l0 ws, nth_error args (ks_out ks) = Some (VArr l0) /\
    (forall md cl, run_func md cl fn args =
       Ok ([], set_nth (ks_out ks) (VArr (ws ++ skipn (List.length ws) l0)) args)) /\
    Forall2 inb (ks_bounds ks) ws /\
    exists rho, Forall (fun b => snd (fst b) <= rho (fst (fst b)) <= snd b) bnds /\
      Forall (fun f => (fst f | fsum args rho (wsum (ks_w ks) ws) (snd f))) fs.
Proof.
  unfold kfacts. rewrite !andb_true_iff. intros [[HP HR] H] args F.
  destruct (nth_error (f_params fn) (ks_out ks)) as [xo|] eqn:Exo; [|discriminate].
  rewrite andb_true_iff in H. destruct H as [HT H].
  destruct (sexecs _ _ _ _ _ _) as [ae s| |] eqn:ES; try discriminate.
  destruct (lookup xo ae) as [[|vs open]|] eqn:Lo; try discriminate.
  destruct (nth_error (ks_in ks) (ks_out ks)) as [[|bs open']|] eqn:Dn; try discriminate.
  destruct (fchk _ _ _ fs s) as [s'|] eqn:Sp; try discriminate.
  rewrite !andb_true_iff, Nat.eqb_eq in H. destruct H as [[[[HS HB] HL] HO] HN].
  apply eqb_prop in HO. subst open'.
  destruct (kinit_ok fn _ _ HP F) as (r0 & rvs & Hs & Hf & K).
  destruct (tbl_build _ _ r0 HS) as (r & R0 & R1).
  destruct (K r R0) as [FO ER]. clear K.
  assert (M' : models r s') by exact R1.
  assert (M : models r s) by (eapply models_ext; [eapply fchk_ext; eauto|exact M']).
  unfold params_ok in HP. rewrite andb_true_iff, Nat.eqb_eq in HP. destruct HP as [HP1 HP2].
  apply nodupb_ok in HP2.
  assert (LA : List.length (f_params fn) = List.length args) by (rewrite HP1; eapply Forall2_len; eauto).
  pose proof (lookup_combine (f_params fn) args HP2 LA) as FC.
  (* the output argument *)
  assert (exists l0, nth_error args (ks_out ks) = Some (VArr l0) /\
    Forall2 inb bs (firstn (List.length bs) l0) /\ (open = false -> List.length l0 = List.length bs)) as (l0 & A0 & A1 & A2).
  { revert Dn. generalize (ks_out ks) as k. clear -F. induction F as [|d v ds args Hd F IH]; intros [|k]; simpl; try discriminate.
    - intros [= ->]. destruct Hd as (l & -> & ?). eauto.
    - apply IH. }
  assert (RS : (if open then rests (f_params fn) (map2 rest_of (ks_in ks) args) xo else []) = skipn (List.length bs) l0).
  { destruct open.
    - unfold rests.
      assert (Lr : List.length (f_params fn) = List.length (map2 rest_of (ks_in ks) args)).
      { rewrite LA. clear -F. induction F; simpl; congruence. }
      pose proof (lookup_combine (f_params fn) _ HP2 Lr) as FR.
      assert (N : nth_error (map2 rest_of (ks_in ks) args) (ks_out ks) = Some (skipn (List.length bs) l0)).
      { revert Dn A0. generalize (ks_out ks) as k. clear -F. induction F as [|d v ds args Hd F IH]; intros [|k]; simpl; try discriminate.
        - intros [= ->] [= ->]. reflexivity.
        - apply IH. }
      clear -FR Exo N. revert FR Exo N. generalize (ks_out ks) as k.
      generalize (combine (f_params fn) (map2 rest_of (ks_in ks) args)) as C.
      intros C k FR. revert k. induction FR as [|x y ps l H F IH]; intros [|k]; simpl; try discriminate.
      + intros [= ->] [= ->]. rewrite H. reflexivity.
      + apply IH.
    - rewrite skipn_all2; auto. rewrite (A2 eq_refl). auto. }
  set (l := map (fun v => peval r (ap v)) vs).
  assert (LL : List.length l = List.length bs) by (unfold l; rewrite map_length; exact HL).
  assert (RUN : forall md cl, exists en', exec_list md cl (f_body fn) (combine (f_params fn) args) = Ok en' /\
     lookup xo en' = Some (VArr (l ++ skipn (List.length l) l0)) /\ Forall2 (holds r) vs l).
  { intros md cl.
    pose proof (sexecs_sound md cl r _ _ _ FO (ks_w ks) (ks_hints ks) (f_body fn) _ _ (snd (kinit fn (ks_in ks))) ER) as X.
    rewrite ES in X. destruct (X M) as (en' & EX & ER'). clear X.
    destruct (ER' _ _ Lo) as (v & Lv & l1 & -> & Fl). assert (l1 = l) by exact (holds_map _ _ _ Fl). subst l1.
    exists en'. split; [exact EX|]. split; [|exact Fl]. rewrite Lv, RS, LL. reflexivity. }
  exists l0, l. split; [exact A0|].
  destruct (RUN Debug (fun _ _ => Stuck)) as (_ & _ & _ & Fl).
  split; [|split].
  - intros md cl. destruct (RUN md cl) as (en' & EX & Lv & _).
    unfold run_func. rewrite (proj2 (Nat.eqb_eq _ _) LA). rewrite EX. simpl.
    destruct (f_rets fn); [|discriminate]. simpl.
    rewrite (gets_ok _ (set_nth (ks_out ks) (VArr (l ++ skipn (List.length l) l0)) args)); [reflexivity|].
    eapply out_env; eauto.
    intros x Hx Nx. eapply frame_stmts; eauto.
    rewrite forallb_forall in HT. specialize (HT x Hx). apply orb_true_iff in HT as [HT|HT].
    + apply String.eqb_eq in HT. contradiction.
    + apply negb_true_iff. exact HT.
  - eapply inB_ok; eauto.
  - pose proof (sexecs_sound Debug (fun _ _ => Stuck) r _ _ _ FO (ks_w ks) (ks_hints ks) (f_body fn) _ _ (snd (kinit fn (ks_in ks))) ER) as X.
    rewrite ES in X. destruct (X M) as (en' & _ & ER').
    exists (rho_of r ae). split.
    + apply Forall_forall. intros ((x, lo), hi) Hin. rewrite forallb_forall in HN. specialize (HN _ Hin). unfold fbnd in HN. cbn [fst snd] in HN |- *.
      destruct (lookup x ae) as [[v|]|] eqn:L; try discriminate. rewrite andb_true_iff, !Z.leb_le in HN.
      pose proof (proj2 (rho_holds r _ ae en' ER' x v L)). lia.
    + pose proof (fchk_sound r _ _ _ FO ae en' ER' _ fs _ _ Sp M') as Y. rewrite Hs, (wsum_p_ok _ _ _ _ Fl) in Y. exact Y.
Qed.
