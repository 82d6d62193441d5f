(** Proofs for C66: a reloaded variable is canonical, and the discipline of
    Machine.v never asks for more than that. *)
From Coq Require Import ZArith List String Bool Lia.
From Verif Require Import Lang Fields Machine Resume Kfacts Ops Methods History EverySpec Every.
Import ListNotations.
Local Open Scope string_scope.
Local Open Scope Z_scope.

(** ** [better s t]: whatever is allowed for [t] is allowed for [s] *)
Definition is_canonical (s : shape) : bool := match s with Canonical => true | _ => false end.
Definition better (s t : shape) : bool :=
  forallb (fun f : shape -> bool => implb (f t) (f s)) [is_canonical; is_tight; is_near; is_summand; is_loose; is_nonneg; is_normal; is_produced; is_wide].
Definition shapes : list shape := [Canonical; Tight; Near; Summand; Loose; Fresh; Difference; Signed; Multiple; Wide; Big; Raw].
Lemma shapes_all s : In s shapes.
Proof. destruct s; cbn; tauto. Qed.
Lemma better_refl s : better s s = true.
Proof. destruct s; reflexivity. Qed.
Lemma better_canonical s : better Canonical s = true.
Proof. destruct s; reflexivity. Qed.
Lemma better_get f s t : In f [is_canonical; is_tight; is_near; is_summand; is_loose; is_nonneg; is_normal; is_produced; is_wide] ->
  better s t = true -> f t = true -> f s = true.
Proof. intros I Q E. unfold better in Q. rewrite forallb_forall in Q. specialize (Q f I). rewrite E in Q. exact Q. Qed.
Lemma better_normal s t : better s t = true -> is_normal t = true -> is_normal s = true.
Proof. apply better_get. cbn; tauto. Qed.

Definition better_opt (x y : option shape) : bool :=
  match y with None => true | Some v => match x with Some u => better u v | None => false end end.
Definition pairs : list (shape * shape) := filter (fun st => better (fst st) (snd st)) (list_prod shapes shapes).
Lemma pairs_all s t : better s t = true -> In (s, t) pairs.
Proof. intros Q. apply filter_In. split; [apply in_prod; apply shapes_all|exact Q]. Qed.
Lemma op_better F o s s' t t' : better s' s = true -> better t' t = true -> better_opt (op_shape F o s' t') (op_shape F o s t) = true.
Proof.
  intros Qs Qt. apply pairs_all in Qs. apply pairs_all in Qt. unfold op_shape.
  generalize (is251 F) (is222 F). intros b1 b2.
  set (g := fun (x y : shape * shape) => better_opt
    match o with
    | Add => Some (if is_tight (fst x) && is_tight (fst y) then Summand else if is_nonneg (fst x) && is_nonneg (fst y) then Loose else Fresh)
    | Sub => if is_tight (fst y) then Some (if is_normal (fst x) && match fst y with Canonical => true | _ => false end then Difference else Signed) else None
    | Mul => if b1 then if (is_summand (fst x) && is_summand (fst y)) || (is_loose (fst x) && is_near (fst y)) || (is_near (fst x) && is_loose (fst y)) then Some Loose else None
             else if is_loose (fst x) && is_loose (fst y) then Some Loose else if negb b2 && is_wide (fst x) && is_wide (fst y) then Some Fresh else None
    | Div => if b1 then None else if b2 then if is_loose (fst x) && is_loose (fst y) then Some Loose else None
             else if is_wide (fst x) && is_wide (fst y) then Some Fresh else None
    end
    match o with
    | Add => Some (if is_tight (snd x) && is_tight (snd y) then Summand else if is_nonneg (snd x) && is_nonneg (snd y) then Loose else Fresh)
    | Sub => if is_tight (snd y) then Some (if is_normal (snd x) && match snd y with Canonical => true | _ => false end then Difference else Signed) else None
    | Mul => if b1 then if (is_summand (snd x) && is_summand (snd y)) || (is_loose (snd x) && is_near (snd y)) || (is_near (snd x) && is_loose (snd y)) then Some Loose else None
             else if is_loose (snd x) && is_loose (snd y) then Some Loose else if negb b2 && is_wide (snd x) && is_wide (snd y) then Some Fresh else None
    | Div => if b1 then None else if b2 then if is_loose (snd x) && is_loose (snd y) then Some Loose else None
             else if is_wide (snd x) && is_wide (snd y) then Some Fresh else None
    end).
  change (g (s', s) (t', t) = true).
  assert (A : forallb (fun x => forallb (g x) pairs) pairs = true) by (unfold g; destruct o, b1, b2; vm_compute; reflexivity).
  rewrite forallb_forall in A. specialize (A _ Qs). rewrite forallb_forall in A. exact (A _ Qt).
Qed.
Lemma un_better F u s s' : better s' s = true -> better_opt (un_shape F u s') (un_shape F u s) = true.
Proof. unfold un_shape. destruct u, (is251 F), (is222 F), s, s'; intros Q; first [reflexivity|discriminate Q]. Qed.
Lemma small_better F o s s' k : better s' s = true -> better_opt (small_shape F o s' k) (small_shape F o s k) = true.
Proof.
  intros Q. unfold small_shape. destruct (i32b k); [|reflexivity]. destruct o.
  - destruct (0 <=? k); revert Q; destruct s, s'; intros Q; first [reflexivity|discriminate Q].
  - reflexivity.
  - destruct (is_tight s) eqn:T; [|reflexivity]. rewrite (better_get is_tight s' s); auto; [|cbn; tauto].
    destruct ((negb (is521 F) || powb k) && (Z.abs k <? 2 ^ (63 - fl_tb F))) eqn:X; rewrite <- andb_assoc; rewrite X; cbn [andb]; [|reflexivity]. cbn [better_opt]. apply better_refl.
Qed.

Notation betters := (Forall2 (fun s t => better s t = true)).
Lemma betters_refl m : betters m m.
Proof. induction m; constructor; auto using better_refl. Qed.
Lemma betters_canonical m : betters (map (fun _ => Canonical) m) m.
Proof. induction m; constructor; auto using better_canonical. Qed.
Lemma betters_nth m' m i t : betters m' m -> nth_error m i = Some t -> exists s, nth_error m' i = Some s /\ better s t = true.
Proof. intros H. revert i. induction H as [|x y l l' Q _ IH]; intros [|i] E; try discriminate; simpl in *; [injection E as <-; eauto|auto]. Qed.
Lemma better_some x y v : better_opt x y = true -> y = Some v -> exists u, x = Some u /\ better u v = true.
Proof. intros Q ->. destruct x as [u|]; [exists u; auto|discriminate]. Qed.

Lemma tracks_better F c m' m n : betters m' m -> tracks F c m = Some n -> exists n', tracks F c m' = Some n' /\ betters n' n.
Proof.
  intros H E.
  assert (New : forall x y r, better_opt x y = true -> match y with Some s => Some (m ++ [s])%list | None => None end = Some r ->
    exists r', match x with Some s => Some (m' ++ [s])%list | None => None end = Some r' /\ betters r' r).
  { intros x y r Q Er. destruct y as [v|]; [|discriminate]. injection Er as <-. destruct (better_some _ _ _ Q eq_refl) as (u & -> & Qu).
    eexists. split; [reflexivity|]. now apply F2_snoc. }
  assert (Set' : forall i x y r, better_opt x y = true -> match y with Some s => Some (replace m i s)%list | None => None end = Some r ->
    exists r', match x with Some s => Some (replace m' i s)%list | None => None end = Some r' /\ betters r' r).
  { intros i x y r Q Er. destruct y as [v|]; [|discriminate]. injection Er as <-. destruct (better_some _ _ _ Q eq_refl) as (u & -> & Qu).
    eexists. split; [reflexivity|]. now apply F2_replace. }
  assert (Norm : forall i r, match nth_error m i with Some s => if is_normal s then Some (replace m i Canonical) else None | None => None end = Some r ->
    exists r', match nth_error m' i with Some s => if is_normal s then Some (replace m' i Canonical) else None | None => None end = Some r' /\ betters r' r).
  { intros i r Er. destruct (nth_error m i) as [t|] eqn:Et; [|discriminate]. destruct (betters_nth _ _ _ _ H Et) as (s & -> & Q).
    destruct (is_normal t) eqn:N; [|discriminate]. rewrite (better_normal _ _ Q N). injection Er as <-. eexists. split; [reflexivity|]. now apply F2_replace. }
  destruct c; cbn [tracks] in *;
    repeat match type of E with match nth_error m ?i with _ => _ end = _ =>
      let t := fresh "t" in let Et := fresh "Et" in destruct (nth_error m i) as [t|] eqn:Et; [|discriminate E];
      let s := fresh "s" in let Es := fresh "Es" in let Q := fresh "Q" in destruct (betters_nth _ _ _ _ H Et) as (s & Es & Q); rewrite ?Es end.
  - destruct c; (eapply (New (Some _) (Some _)); [|exact E]; apply better_refl).
  - destruct (bytesb bs && (fl_nb F <=? List.length bs)%nat); [|discriminate]. eapply (New (Some _) (Some _)); [|exact E]. apply better_refl.
  - destruct (drawsb F ds); [|discriminate]. eapply (New (Some _) (Some _)); [|exact E]. apply better_refl.
  - eapply New; [|exact E]. now apply op_better.
  - eapply Set'; [|exact E]. now apply op_better.
  - eapply New; [|exact E]. now apply small_better.
  - eapply Set'; [|exact E]. now apply small_better.
  - eapply New; [|exact E]. now apply un_better.
  - eapply Set'; [|exact E]. now apply un_better.
  - discriminate.
  - eapply New; [|exact E]. now apply un_better.
  - eapply New; [|exact E]. now apply un_better.
  - pose proof (Norm i n) as K. rewrite Et, Es in K. exact (K E).
  - pose proof (Norm i n) as K. rewrite Et, Es in K. exact (K E).
  - destruct (is_normal t && is_normal t0 && negb (Nat.eqb i j)) eqn:K; [|discriminate]. apply andb_true_iff in K as [K K3]. apply andb_true_iff in K as [K1 K2].
    rewrite (better_normal _ _ Q K1), (better_normal _ _ Q0 K2), K3. cbn [andb]. injection E as <-. eexists. split; [reflexivity|].
    apply F2_replace; [apply F2_replace; [exact H|reflexivity]|reflexivity].
  - destruct ((0 <=? n0) && (n0 <? fl_w F * Z.of_nat (fl_n F))); [|discriminate]. now apply Norm.
  - destruct (is_normal t) eqn:N; [|discriminate]. rewrite (better_normal _ _ Q N). injection E as <-. eauto.
Qed.
Lemma tracks_all_better F p : forall m' m n, betters m' m -> tracks_all F p m = Some n -> exists n', tracks_all F p m' = Some n' /\ betters n' n.
Proof.
  induction p as [|c p IH]; intros m' m n H E; cbn [tracks_all] in *; [injection E as <-; eauto|].
  destruct (tracks F c m) as [n1|] eqn:E1; [|discriminate]. destruct (tracks_better F c m' m n1 H E1) as (n1' & -> & H1). eauto.
Qed.
Lemma tracks_app F p q : forall m, tracks_all F (p ++ q) m = match tracks_all F p m with Some m1 => tracks_all F q m1 | None => None end.
Proof. induction p as [|c p IH]; intros m; cbn [tracks_all app]; [reflexivity|]. destruct (tracks F c m); auto. Qed.
Lemma ideal_app F p q : forall i, ideal F (p ++ q) i = match ideal F p i with Some i1 => ideal F q i1 | None => None end.
Proof. induction p as [|c p IH]; intros i; cbn [ideal app]; [reflexivity|]. destruct (istep F c i); auto. Qed.

Section Store.
  Variable F : fld.
  Hypothesis HF : In F all_fields.
  (** ** A reloaded variable *)
  Lemma reload_ok a : normal F a -> exists b, (forall wr rd, reload wr rd F a = Ok b) /\ canonical F b /\ eqmod F (value F b) (value F a).
  Proof.
    intros N. pose proof (packed_runs F a HF N) as R. apply (runsd_runs 6) in R; [|lia].
    destruct (unpack_tracks F HF (encode F (value F a))) as (b & U & S & V).
    { apply andb_true_iff. split.
      - unfold bytesb. rewrite forallb_forall. pose proof (encode_bytes F (value F a)) as K. unfold is_bytes in K. rewrite Forall_forall in K.
        intros x Hx. specialize (K x Hx). lia.
      - apply Nat.leb_le. now rewrite encode_len. }
    exists b. split; [|].
    { intros wr rd. unfold reload. rewrite (R wr). cbn [bind fst]. rewrite (U rd). reflexivity. }
    assert (MP : 0 < modulus F) by (apply modulus_pos; auto). pose proof (Z.mod_pos_bound (value F a) (modulus F) MP) as MB.
    assert (ML : modulus F < 2 ^ nbits F) by (unfold modulus; destruct (layout_facts F HF) as (_ & _ & _ & C & _); lia).
    assert (VB : value F b = value F a mod modulus F).
    { rewrite V. unfold bytes_value. rewrite firstn_all2 by (rewrite encode_len; lia). rewrite (encode_value F _ HF).
      destruct (nbits F =? 383); [reflexivity|]. apply Z.mod_small. lia. }
    split.
    - split; [|lia]. destruct (nbits F =? 383); [|exact S]. eapply rep_value_tight; [exact HF|exact S|]. lia.
    - rewrite VB. unfold eqmod. apply Z.mod_mod. lia.
  Qed.
  Lemma reload_all_ok l : Forall (normal F) l -> exists l', (forall wr rd, reload_all wr rd F l = Ok l') /\
    Forall (canonical F) l' /\ Forall2 (fun b a => eqmod F (value F b) (value F a)) l' l.
  Proof.
    induction 1 as [|a l N _ (l' & R & C & V)]; [exists []; repeat split; constructor|].
    destruct (reload_ok a N) as (b & Rb & Cb & Vb). exists (b :: l'). split; [|split; constructor; auto].
    intros wr rd. cbn [reload_all]. rewrite Rb. cbn [bind]. rewrite R. reflexivity.
  Qed.
  Lemma sim_reload m s i : sim F m s i -> Forall (fun x => is_normal x = true) m ->
    exists l, (forall wr rd, reload_all wr rd F (vars s) = Ok l) /\ sim F (map (fun _ => Canonical) m) (mkst l (seen s)) i.
  Proof.
    intros (A & Bb & C) N.
    assert (NV : Forall (normal F) (vars s)).
    { clear Bb C. revert N. induction A as [|x a m' l Sa _ IH]; intros N; [constructor|]. inversion N; subst. constructor; auto. eapply sh_normal; eauto. }
    destruct (reload_all_ok _ NV) as (l & R & K & V). exists l. split; [exact R|]. split; [|split; [|exact C]]; cbn [vars].
    - clear Bb C R N NV. revert l K V. induction A as [|x a m' l0 Sa _ IH]; intros l K V; inversion V; subst; [constructor|]. inversion K; subst. constructor; auto.
    - clear A R N NV K C. revert l V. induction Bb as [|a x l0 xs E _ IH]; intros l V; inversion V; subst; constructor; auto. unfold eqmod in *. congruence.
  Qed.

  Lemma resume_ok q ps : forall m0 m mf s i, betters m0 m -> sim F m0 s i -> tracks_all F (List.concat ps ++ q)%list m = Some mf -> storable F ps m ->
    exists t i' m1, (forall pm last, map snd pm = ps -> resume F pm last q s = Ok t) /\ ideal F (List.concat ps ++ q)%list i = Some i' /\ sim F m1 t i' /\ betters m1 mf.
  Proof.
    induction ps as [|p ps IH]; intros m0 m mf s i L S E St.
    - cbn [List.concat app] in *. destruct (tracks_all_better F q m0 m mf L E) as (m1 & E1 & L1).
      destruct (run_tracks F HF q m0 m1 s i E1 S) as (t & i' & R & I & S'). exists t, i', m1. repeat split; auto; try apply S'.
      intros [|] last K; [apply R|discriminate].
    - destruct St as (n & En & Nn & St). cbn [List.concat] in *. rewrite <- app_assoc in *. rewrite tracks_app, En in E.
      destruct (tracks_all_better F p m0 m n L En) as (n0 & En0 & Ln).
      destruct (run_tracks F HF p m0 n0 s i En0 S) as (s1 & i1 & R & I & S1).
      assert (N0 : Forall (fun x => is_normal x = true) n0).
      { clear -Ln Nn. revert Nn. induction Ln as [|x y l l' Q _ IHl]; intros N; [constructor|]. inversion N; subst. constructor; eauto using better_normal. }
      destruct (sim_reload _ _ _ S1 N0) as (l & Rl & S2).
      assert (L2 : betters (map (fun _ => Canonical) n0) n).
      { clear -Ln. induction Ln; constructor; auto using better_canonical. }
      destruct (IH _ n mf (mkst l (seen s1)) i1 L2 S2 E St) as (t & i' & m1 & Rt & It & S' & L').
      exists t, i', m1. split; [|split; [|split]]; auto.
      + intros pm last K. destruct pm as [|[md p'] pm]; [discriminate|]. cbn [map snd] in K. injection K as -> K.
        cbn [resume]. rewrite (R md). cbn [bind]. rewrite Rl. cbn [bind]. apply Rt. exact K.
      + rewrite ideal_app, I. exact It.
  Qed.
End Store.

Lemma any_point F ps q m : In F all_fields -> tracks_all F (List.concat ps ++ q)%list [] = Some m -> storable F ps [] ->
  exists s t, (forall md, run md F (List.concat ps ++ q)%list start = Ok s) /\ (forall pm last, map snd pm = ps -> resume F pm last q start = Ok t) /\
    seen t = seen s /\ Forall2 (fun a b => eqmod F (value F a) (value F b)) (vars t) (vars s).
Proof.
  intros H E St.
  destruct (run_tracks F H _ [] m start istart E) as (s & i & R & I & A & Bb & C); [split; [|split]; constructor|].
  destruct (resume_ok F H q ps [] [] m start istart) as (t & i' & m1 & Rt & It & (A' & Bb' & C') & _); [constructor|split; [|split]; constructor|exact E|exact St|].
  rewrite I in It. injection It as <-. exists s, t. split; [exact R|]. split; [exact Rt|]. split; [congruence|].
  clear -Bb Bb'. revert Bb. generalize (vars s). induction Bb' as [|a x l xs E _ IH]; intros l0 K; inversion K; subst; constructor; auto. unfold eqmod in *. congruence.
Qed.
(** one value *)
Lemma reloaded F a : In F all_fields -> normal F a -> exists b, (forall wr rd, reload wr rd F a = Ok b) /\ canonical F b /\ eqmod F (value F b) (value F a).
Proof. intros H. apply reload_ok. exact H. Qed.
Lemma reloaded_same F a : In F all_fields -> canonical F a -> forall wr rd, reload wr rd F a = Ok a.
Proof.
  intros H C wr rd. destruct (reload_ok F H a (canonical_normal F a H C)) as (b & R & Cb & V). rewrite R. f_equal.
  rewrite <- (canon_id F a H C), <- (canon_id F b H Cb). unfold canon. now rewrite V.
Qed.
(** any value: exactly when it survives *)
Lemma reload_every F a : In F all_fields -> any_rep F a ->
  exists b, (forall wr rd, reload wr rd F a = Ok b) /\ (if nbits F =? 383 then summand F b else tight F b) /\
    (eqmod F (value F b) (value F a) <-> 0 <= folded F a \/ F = e383_187 /\ folded F a < - fl_C F).
Proof.
  intros H A. pose proof (packed_every_runs F a H A) as R. apply (runsd_runs 6) in R; [|lia].
  destruct (bytes_of_facts F a H) as (Y1 & Y2 & Y3). rewrite (settled_mod F a H A) in Y3.
  destruct (unpack_tracks F H (bytes_of F a)) as (b & U & S & V).
  { apply andb_true_iff. split; [|apply Nat.leb_le; lia].
    unfold bytesb. rewrite forallb_forall. unfold is_bytes in Y1. rewrite Forall_forall in Y1. intros x Hx. specialize (Y1 x Hx). lia. }
  exists b. split; [intros wr rd; unfold reload; rewrite (R wr); cbn [bind fst]; rewrite (U rd); reflexivity|].
  split; [destruct (nbits F =? 383); exact S|].
  unfold bytes_value in V. rewrite firstn_all2 in V by lia. rewrite Y3 in V.
  pose proof (modulus_pos F H) as (MP & MC & _). pose proof (settled_range F a H A) as SR.
  destruct (layout_facts F H) as (_ & _ & _ & C & _). destruct (tops_small F H) as [_ T4].
  assert (D : F = e383_187 /\ (nbits F =? 383) = true /\ written_bits F = 384 \/ F <> e383_187 /\ (nbits F =? 383) = false /\ written_bits F = nbits F).
  { revert H. clear. intros H. repeat (destruct H as [<-|H]; [first [right; split; [intros E; apply (f_equal nbits) in E; discriminate E|split; reflexivity]|left; split; [reflexivity|split; reflexivity]]|]). destruct H. }
  assert (X : value F b = if settled F a <? 0 then 2 ^ written_bits F + settled F a else settled F a).
  { destruct D as [(_ & Q & _)|(_ & Q & W)]; rewrite Q in V; [exact V|]. rewrite V. rewrite W. apply Z.mod_small. unfold modulus in *.
    destruct (Z.ltb_spec (settled F a) 0); lia. }
  clear V. pose proof (folded_eqmod F a) as FE.
  assert (Key : eqmod F (value F b) (value F a) <-> (modulus F | value F b - folded F a)).
  { assert (M0 : modulus F <> 0) by lia. rewrite <- (Z.mod_divide _ _ M0). unfold eqmod in *. rewrite <- FE. split; intros E.
    - rewrite Zminus_mod, E, Z.sub_diag. apply Z.mod_0_l. lia.
    - replace (value F b) with (value F b - folded F a + folded F a) by ring. rewrite Zplus_mod, E, Z.add_0_l, Z.mod_mod by lia. reflexivity. }
  rewrite Key. clear Key.
  assert (NoC : forall k, k <> 0 -> Z.abs k <= 2 * fl_C F -> ~ (modulus F | k)).
  { intros k N K [q Q]. assert (q = 0) by nia. subst q. lia. }
  assert (P : 2 ^ written_bits F = if nbits F =? 383 then 2 * modulus F + 2 * fl_C F else modulus F + fl_C F).
  { destruct D as [(-> & _)|(_ & Q & W)]; [reflexivity|]. rewrite Q, W. unfold modulus. ring. }
  rewrite X, P. clear X. unfold settled. destruct (Z.leb_spec 0 (folded F a)) as [P0|P0].
  - destruct (Z.ltb_spec (value F a mod modulus F) 0); [pose proof (Z.mod_pos_bound (value F a) _ MP); lia|].
    split; [intros _; left; exact P0|intros _]. apply Z.mod_divide; [lia|]. rewrite Zminus_mod, Z.mod_mod, FE, Z.sub_diag by lia. apply Z.mod_0_l. lia.
  - destruct (Z.leb_spec (- fl_C F) (folded F a)) as [P1|P1].
    + destruct (Z.ltb_spec (folded F a) 0); [|lia]. split; [|lia]. intros Dv. exfalso.
      destruct D as [(_ & Q & _)|(_ & Q & _)]; rewrite Q in Dv.
      * apply (NoC (2 * fl_C F)); [lia|lia|]. destruct Dv as [q Dv]. exists (q - 2). lia.
      * apply (NoC (fl_C F)); [lia|lia|]. destruct Dv as [q Dv]. exists (q - 1). lia.
    + destruct (Z.ltb_spec (folded F a - 2 * fl_C F) 0); [|lia]. destruct D as [(E & Q & _)|(E & Q & _)]; rewrite Q.
      * split; [intros _; right; split; [exact E|exact P1]|]. intros _. exists 2. ring.
      * split; [|intros [K|[K _]]; [lia|contradiction (E K)]]. intros Dv. exfalso. apply (NoC (- fl_C F)); [lia|lia|].
        destruct Dv as [q Dv]. exists (q - 1). lia.
Qed.

(** ** The condition at the stops is needed *)
(** zero minus the value of all ones, which is above the prime, is negative *)
Definition before_stop (F : fld) : list instr := [IConst Zero; IUnpacked (repeat 255%Z (fl_nb F)); IOp Sub 0 1; IUnpacked (repeat 255%Z (fl_nb F))]%nat.
Definition after_stop : list instr := [IOp Add 2 3; IPacked 4]%nat.
Definition stop_checked : forallb (fun F => (nbits F =? 383) || (nbits F =? 521) ||
  (match tracks_all F (before_stop F ++ after_stop) [] with Some _ => true | None => false end &&
   match run Debug F (before_stop F ++ after_stop) start, resume F [(Debug, before_stop F)] Debug after_stop start with
   | Ok s, Ok t => match seen s, seen t with [VArr x], [VArr y] => negb (nth 0 x 0 =? nth 0 y 0) | _, _ => false end
   | _, _ => false end)) all_fields = true.
Proof. vm_compute. reflexivity. Qed.
Lemma stop_refuted F : In F all_fields -> F <> e383_187 -> F <> e521_1 ->
  exists p q m s t, tracks_all F (p ++ q)%list [] = Some m /\ run Debug F (p ++ q)%list start = Ok s /\
    resume F [(Debug, p)] Debug q start = Ok t /\ seen t <> seen s.
Proof.
  intros H N1 N2. pose proof stop_checked as K. rewrite forallb_forall in K. specialize (K F H).
  assert (D : (nbits F =? 383) = false /\ (nbits F =? 521) = false).
  { revert H N1 N2. clear. intros H N1 N2. repeat (destruct H as [<-|H]; [first [split; reflexivity|contradiction (N1 eq_refl)|contradiction (N2 eq_refl)]|]). destruct H. }
  destruct D as [D1 D2]. rewrite D1, D2 in K. cbn [orb] in K. apply andb_true_iff in K as [K1 K2].
  destruct (tracks_all F (before_stop F ++ after_stop) []) as [m|] eqn:E; [|discriminate].
  destruct (run Debug F (before_stop F ++ after_stop) start) as [s| |] eqn:R; try discriminate.
  destruct (resume F [(Debug, before_stop F)] Debug after_stop start) as [t| |] eqn:R'; try discriminate.
  exists (before_stop F), after_stop, m, s, t. repeat split; auto. intros Q. rewrite Q in K2.
  destruct (seen s) as [|[|x] [|]]; try discriminate. rewrite Z.eqb_refl in K2. discriminate.
Qed.
