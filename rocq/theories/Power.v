(** Inversion, Legendre symbol and square root as powers: a symbolic executor
    that tracks exponents, sound for the fields where products of products are
    in the multiplication domain (all but mod_e251_9). *)
From Coq Require Import ZArith List String Lia Bool.
From Verif Require Import Lang Poly Kernel Fields Kfacts Ops Words Codec Normalize Methods Surface Forms.
From Verif Require Src_e221_3.
Import ListNotations.
Local Open Scope string_scope.
Local Open Scope Z_scope.

(** ** A top word of at least -1 always normalises *)
Definition fresh (F : fld) : list Z -> Prop := rep F (-1) (2 * 2 ^ fl_tb F + (fl_C F - 1)).
Lemma top_normal F lo hi a : In F all_fields -> rep F lo hi a -> - B F + 1 <= lo -> hi <= 2 ^ 63 - 1 -> normal F a.
Proof.
  intros H R L U. pose proof (B_pos F H). pose proof (small_tops_ok F H). split; [eapply rep_weaken; [exact R|lia|lia]|].
  destruct (Z_lt_ge_dec (top F a) 0) as [N|N].
  2:{ assert (R0 : rep F 0 hi a) by (destruct R as (R1 & R2 & R3); split; [auto|split; [auto|lia]]).
      eapply nonneg_folded; [exact H|exact R0|lia]. }
  destruct (rep_value F lo hi a H R) as [E Bd]. pose proof (lowmod_pos F H) as LM.
  destruct (layout_facts F H) as (_ & _ & _ & C & _).
  assert (LC : fl_C F <= lowmod F).
  { revert C LM. clear -H. intros. assert (forallb (fun F => fl_C F <=? lowmod F) all_fields = true) as K by (vm_compute; reflexivity).
    pose proof (all_chk _ K F H) as K'. apply Z.leb_le in K'. exact K'. }
  destruct R as (_ & _ & T). unfold folded, carry.
  assert (top F a / 2 ^ fl_tb F = -1) as ->.
  { fold (B F). symmetry. apply (Z.div_unique _ _ _ (top F a + B F)); lia. }
  rewrite E. unfold modulus. rewrite pow_nbits' by auto. nia.
Qed.
Lemma fresh_normal F a : In F all_fields -> fresh F a -> normal F a.
Proof.
  intros H R. pose proof (B_pos F H). pose proof (small_tops_ok F H). destruct (layout_facts F H) as (_ & _ & _ & C & _).
  fold (B F) in *. unfold fresh in R. fold (B F) in R. eapply top_normal; [exact H|exact R|lia|lia].
Qed.
Lemma fresh_wide F a : In F all_fields -> fresh F a -> wide F a.
Proof.
  intros H R. pose proof (B_pos F H). destruct (layout_facts F H) as (_ & _ & _ & C & _).
  pose proof (W_big F H). unfold fresh, B in *. apply (wide_intro F _ _ _ R); lia.
Qed.

Lemma pow_mul F a b : In F all_fields -> pow_safe F a -> pow_safe F b ->
  exists o, runsd 1 F "F::mul_assign(&F)" [VArr a; VArr b] [] [VArr o; VArr b] /\
    pow_safe F o /\ fresh F o /\ eqmod F (value F o) (value F a * value F b).
Proof.
  intros H [[E A]|[N1 [N2 A]]] [[E' A']|[N1' [N2' A']]]; try contradiction.
  - destruct (mul_ok F a b H) as (o & R & Ro & Eo & Lo).
    { apply safe_loose; auto. subst F. discriminate. }
    exists o. split; [exact R|]. split; [left; auto|]. split; [exact Ro|exact Eo].
  - destruct (mul_ok F a b H) as (o & R & Ro & Eo & Lo); [apply safe_wide; auto|].
    exists o. split; [exact R|]. split; [right; split; [auto|split; [auto|apply fresh_wide; auto]]|]. split; [exact Ro|exact Eo].
Qed.
Lemma pow_square F a : In F all_fields -> pow_safe F a ->
  exists o, runsd 1 F "F::square" [VArr a] [] [VArr o] /\
    pow_safe F o /\ fresh F o /\ eqmod F (value F o) (value F a * value F a).
Proof.
  intros H [[E A]|[N1 [N2 A]]].
  - destruct (square_ok F a H) as (o & R & Ro & Eo & Lo). { left; auto. }
    exists o. split; [exact R|]. split; [left; auto|]. split; [exact Ro|exact Eo].
  - destruct (square_ok F a H) as (o & R & Ro & Eo & Lo); [right; right; auto|].
    exists o. split; [exact R|]. split; [right; split; [auto|split; [auto|apply fresh_wide; auto]]|]. split; [exact Ro|exact Eo].
Qed.
Lemma same_squared : same "F::squared" Src_e221_3.f_squared. Proof. same_tac. Qed.
Lemma squared_runs F a o : In F all_fields -> runsd 1 F "F::square" [VArr a] [] [VArr o] ->
  runsd 2 F "F::squared" [VArr a] [VArr o] [VArr a].
Proof.
  intros H R. apply (call_step _ _ _ _ _ _ _ (same_squared F H)). intros md fuel Hf.
  unfold Src_e221_3.f_squared. evm. callee R. reflexivity.
Qed.

(** ** The executor *)
Inductive xval := XE (e : Z) (fr : bool) | XU.
Definition xenv := list (string * xval).

Section X.
  Variable one : list Z.
  Variable quartic : option Z.    (* exponent of quartic_legendre, once known *)
  Fixpoint iter_opt {A} (n : nat) (f : A -> option A) (a : A) : option A :=
    match n with O => Some a | S k => match f a with Some b => iter_opt k f b | None => None end end.
  Fixpoint xstmt (s : stmt) (en : xenv) {struct s} : option xenv :=
    match s with
    | SLet x (EVar y) => match lookup y en with Some c => Some (upd x c en) | None => None end
    | SLet x (ELit l) => if words_eqb l one then Some (upd x (XE 0 false) en) else None
    | SCall [] f [AMut v] =>
        if String.eqb f "F::square" then
          match lookup v en with Some (XE e _) => Some (upd v (XE (2 * e) true) en) | _ => None end
        else None
    | SCall [] f [AMut u; AVal (EVar v)] =>
        if String.eqb f "F::mul_assign(&F)" then
          match lookup u en, lookup v en with
          | Some (XE e _), Some (XE e' _) => Some (upd u (XE (e + e') true) en) | _, _ => None end
        else None
    | SCall [d] f [AVal (EVar v)] =>
        match lookup v en with
        | Some (XE e _) =>
            if String.eqb f "F::squared" then Some (upd d (XE (2 * e) true) en)
            else if String.eqb f "F::quartic_legendre" then
              match quartic with Some q => Some (upd d (XE (q * e) true) en) | None => None end
            else None
        | _ => None
        end
    | SFor x (EInt a) (EInt b) body =>
        iter_opt (Z.to_nat (b - a)) (fun en =>
          (fix go (l : list stmt) (en : xenv) : option xenv :=
            match l with [] => Some en | s :: t => match xstmt s en with Some en' => go t en' | None => None end end)
          body (upd x XU en)) en
    | _ => None
    end.
  Fixpoint xlist (l : list stmt) (en : xenv) : option xenv :=
    match l with [] => Some en | s :: t => match xstmt s en with Some en' => xlist t en' | None => None end end.
End X.

Section Sound.
  Variables (F : fld) (x0 : Z) (quartic : option Z).
  Hypothesis HF : In F all_fields.
  Hypothesis HQ : forall q, quartic = Some q -> 0 <= q /\ forall a, pow_safe F a -> exists o,
    runsd 2 F "F::quartic_legendre" [VArr a] [VArr o] [VArr a] /\ pow_safe F o /\ fresh F o /\
    eqmod F (value F o) (value F a ^ q).
  Let one := to_words F 1.
  Hypothesis H1 : pow_safe F one.

  Definition relv (v : val) (c : xval) : Prop :=
    match c with
    | XE e fr => 0 <= e /\ exists l, v = VArr l /\ pow_safe F l /\ (fr = true -> fresh F l) /\ eqmod F (value F l) (x0 ^ e)
    | XU => True
    end.
  Definition rele (en : env) (xe : xenv) : Prop :=
    Forall2 (fun p q => fst p = fst q /\ relv (snd p) (snd q)) en xe.
  Lemma rele_lookup en xe y c : rele en xe -> lookup y xe = Some c -> exists v, lookup y en = Some v /\ relv v c.
  Proof.
    intros R. induction R as [|[k v] [k' c'] en xe [E1 E2] R IH]; cbn [lookup fst snd] in *; [discriminate|].
    subst k'. destruct (String.eqb y k); auto. intros X. injection X as <-. eauto.
  Qed.
  Lemma rele_upd en xe y v c : rele en xe -> relv v c -> rele (upd y v en) (upd y c xe).
  Proof.
    intros R V. induction R as [|[k w] [k' c'] en xe [E1 E2] R IH]; cbn [upd fst snd] in *.
    - constructor; [|constructor]. auto.
    - subst k'. destruct (String.eqb y k); constructor; auto.
  Qed.
  Lemma eqmod_mul a b c d : eqmod F a b -> eqmod F c d -> eqmod F (a * c) (b * d).
  Proof. unfold eqmod. intros E1 E2. rewrite Z.mul_mod by (pose proof (modulus_pos F HF); lia).
    rewrite E1, E2. rewrite <- Z.mul_mod by (pose proof (modulus_pos F HF); lia). reflexivity. Qed.
  Lemma eqmod_pow a b k : 0 <= k -> eqmod F a b -> eqmod F (a ^ k) (b ^ k).
  Proof.
    intros Hk E. revert k Hk. apply natlike_ind; [reflexivity|].
    intros k Hk IH. rewrite !Z.pow_succ_r by auto. apply eqmod_mul; auto.
  Qed.

  Lemma square_rel v e fr : relv v (XE e fr) -> exists a o, v = VArr a /\
    runsd 1 F "F::square" [VArr a] [] [VArr o] /\ relv (VArr o) (XE (2 * e) true).
  Proof.
    intros (He & l & -> & P & _ & E). destruct (pow_square F l HF P) as (o & R & Po & Fo & Eo).
    exists l, o. split; auto. split; auto. split; [lia|]. exists o. split; auto. split; auto. split; auto.
    refine (eq_trans Eo _). replace (2 * e) with (e + e) by lia. rewrite Z.pow_add_r by auto. apply eqmod_mul; auto.
  Qed.
  Lemma mul_rel u v e fr e' fr' : relv u (XE e fr) -> relv v (XE e' fr') -> exists a b o, u = VArr a /\ v = VArr b /\
    runsd 1 F "F::mul_assign(&F)" [VArr a; VArr b] [] [VArr o; VArr b] /\ relv (VArr o) (XE (e + e') true).
  Proof.
    intros (He & l & -> & P & _ & E) (He' & l' & -> & P' & _ & E'). destruct (pow_mul F l l' HF P P') as (o & R & Po & Fo & Eo).
    exists l, l', o. split; auto. split; auto. split; auto. split; [lia|]. exists o. split; auto. split; auto. split; auto.
    refine (eq_trans Eo _). rewrite Z.pow_add_r by auto. apply eqmod_mul; auto.
  Qed.

  Let cl md fuel := call md no_base (fl_tbl F) fuel.
  Definition sound (s : stmt) : Prop := forall en xe xe', rele en xe -> xstmt one quartic s xe = Some xe' ->
    exists en', (forall md fuel, (2 <= fuel)%nat -> exec md (cl md fuel) s en = Ok en') /\ rele en' xe'.

  Lemma xstmt_sound : forall s, sound s.
  Proof.
    apply (stmt_ind' sound); unfold sound; try (intros; discriminate).
    - intros x e en xe xe' R. destruct e; try discriminate; cbn [xstmt].
      + destruct (words_eqb l one) eqn:E; [|discriminate]. apply words_eqb_eq in E. subst l.
        intros X. injection X as <-. exists (upd x (VArr one) en). split; [intros; reflexivity|]. apply rele_upd; auto.
        split; [lia|]. exists one. split; auto. split; auto. split; [discriminate|].
        unfold one. rewrite to_words_value by auto. reflexivity.
      + destruct (lookup x1 xe) as [c|] eqn:E; [|discriminate]. intros X. injection X as <-.
        destruct (rele_lookup en xe x1 c R E) as (v & Lv & V). exists (upd x v en).
        split; [|apply rele_upd; auto]. intros md fuel _. cbn [exec eval]. unfold get. rewrite Lv. reflexivity.
    - intros ds f l en xe xe' R. cbn [xstmt]. destruct ds as [|d [|]]; [| |discriminate].
      + destruct l as [|[e|u] l]; try discriminate. destruct l as [|a l].
        * destruct (String.eqb_spec f "F::square") as [->|]; [|discriminate].
          destruct (lookup u xe) as [[e fr|]|] eqn:E; try discriminate. intros X. injection X as <-.
          destruct (rele_lookup en xe u _ R E) as (v & Lv & V).
          destruct (square_rel v e fr V) as (a & o & -> & Ro & Vo).
          exists (upd u (VArr o) en). split; [|apply rele_upd; auto].
          intros md fuel Hfuel. cbn [exec eval_args]. unfold get. rewrite Lv. cbn [bind]. unfold cl. rewrite Ro by lia. reflexivity.
        * destruct a as [e|]; [|discriminate]. destruct e; try discriminate. destruct l; try discriminate.
          destruct (String.eqb_spec f "F::mul_assign(&F)") as [->|]; [|discriminate].
          destruct (lookup u xe) as [[e fr|]|] eqn:E; try discriminate.
          destruct (lookup x xe) as [[e' fr'|]|] eqn:E'; try discriminate. intros X. injection X as <-.
          destruct (rele_lookup en xe u _ R E) as (v & Lv & V). destruct (rele_lookup en xe x _ R E') as (v' & Lv' & V').
          destruct (mul_rel v v' e fr e' fr' V V') as (a & b & o & -> & -> & Ro & Vo).
          exists (upd u (VArr o) en). split; [|apply rele_upd; auto].
          intros md fuel Hfuel. cbn [exec eval_args eval]. unfold get. rewrite Lv, Lv'. cbn [bind]. unfold cl. rewrite Ro by lia. reflexivity.
      + destruct l as [|[e|u] l]; try discriminate. destruct e; try discriminate. destruct l; try discriminate.
        destruct (lookup x xe) as [[e fr|]|] eqn:E; try discriminate.
        destruct (rele_lookup en xe x _ R E) as (v & Lv & V).
        destruct (String.eqb_spec f "F::squared") as [->|].
        { intros X. injection X as <-. destruct (square_rel v e fr V) as (a & o & -> & Ro & Vo).
          pose proof (squared_runs F a o HF Ro) as R2.
          exists (upd d (VArr o) en). split; [|apply rele_upd; auto].
          intros md fuel Hfuel. cbn [exec eval_args eval]. unfold get. rewrite Lv. cbn [bind]. unfold cl. rewrite R2 by lia. reflexivity. }
        destruct (String.eqb_spec f "F::quartic_legendre") as [->|]; [|discriminate].
        destruct quartic as [q|]; [|discriminate]. intros X. injection X as <-.
        destruct (HQ q eq_refl) as (Hq & HQ'). destruct V as (He & a & -> & P & _ & Ea).
        destruct (HQ' a P) as (o & Ro & Po & Fo & Eo).
        exists (upd d (VArr o) en). split; [|apply rele_upd; auto].
        * intros md fuel Hfuel. cbn [exec eval_args eval]. unfold get. rewrite Lv. cbn [bind]. unfold cl. rewrite Ro by lia. reflexivity.
        * split; [lia|]. exists o. split; auto. split; auto. split; auto.
          refine (eq_trans Eo _). rewrite Z.mul_comm, Z.pow_mul_r by auto. apply eqmod_pow; auto.
    - intros x lo hi b IH en xe xe' R. cbn [xstmt].
      destruct lo; try discriminate. destruct hi; try discriminate.
      match goal with |- context [iter_opt (Z.to_nat (?h - ?l))] => rename l into a; rename h into c end.
      assert (GO : forall en xe xe', rele en xe ->
         (fix go (l : list stmt) (en : xenv) : option xenv :=
            match l with [] => Some en | s :: t => match xstmt one quartic s en with Some en' => go t en' | None => None end end) b xe = Some xe' ->
         exists en', (forall md fuel, (2 <= fuel)%nat -> exec_list md (cl md fuel) b en = Ok en') /\ rele en' xe').
      { clear en xe xe' R. induction IH as [|s b Hs Hb IHb]; intros en xe xe' R E.
        - injection E as <-. exists en. split; auto.
        - destruct (xstmt one quartic s xe) as [xe1|] eqn:E1; [|discriminate].
          destruct (Hs en xe xe1 R E1) as (en1 & X1 & R1). destruct (IHb en1 xe1 xe' R1 E) as (en2 & X2 & R2).
          exists en2. split; auto. intros md fuel Hfuel. cbn [exec_list]. rewrite X1 by auto. apply X2; auto. }
      intros E.
      assert (exists en', (forall md fuel, (2 <= fuel)%nat -> loop_from md (cl md fuel) x b (Z.to_nat (c - a)) a en = Ok en') /\ rele en' xe') as (en' & X & R').
      2:{ exists en'. split; [|exact R']. intros md fuel Hfuel. rewrite (exec_for md (cl md fuel) x (EInt a) (EInt c) b en a c) by reflexivity. apply X; auto. }
      revert E R. generalize (Z.to_nat (c - a)) as n. intros n. revert a en xe.
      induction n as [|n IHn]; intros a en xe E R; cbn [iter_opt loop_from] in *.
      + injection E as <-. exists en. split; auto.
      + match type of E with match ?t with _ => _ end = _ => destruct t as [xe1|] eqn:E1; [|discriminate] end.
        destruct (GO (upd x (VInt a) en) (upd x XU xe) xe1) as (en1 & X1 & R1); auto.
        { apply rele_upd; auto. exact I. }
        destruct (IHn (a + 1) en1 xe1) as (en2 & X2 & R2); auto. exists en2. split; [|exact R2].
        intros md fuel Hfuel. rewrite X1 by auto. cbn [bind]. apply X2; auto.
  Qed.
  Lemma xlist_sound l : forall en xe xe', rele en xe -> xlist one quartic l xe = Some xe' ->
    exists en', (forall md fuel, (2 <= fuel)%nat -> exec_list md (cl md fuel) l en = Ok en') /\ rele en' xe'.
  Proof.
    induction l as [|s l IH]; intros en xe xe' R E; cbn [xlist exec_list] in *.
    - injection E as <-. exists en. split; auto.
    - destruct (xstmt one quartic s xe) as [xe1|] eqn:E1; [|discriminate].
      destruct (xstmt_sound s en xe xe1 R E1) as (en1 & X1 & R1). destruct (IH en1 xe1 xe') as (en2 & X2 & R2); auto.
      exists en2. split; [|exact R2]. intros md fuel Hfuel. rewrite X1 by auto. apply X2; auto.
  Qed.
End Sound.

(** ** Variables a statement leaves alone *)
Definition arg_writes (x : string) (a : arg) : bool := match a with AMut y => String.eqb x y | AVal _ => false end.
Fixpoint writes (x : string) (s : stmt) : bool :=
  match s with
  | SLet y _ | SSet y _ _ | SPushStr y _ | SPushHex y _ _ _ _ => String.eqb x y
  | SCall ds _ l => existsb (String.eqb x) ds || existsb (arg_writes x) l
  | SFor y _ _ b => String.eqb x y || existsb (writes x) b
  | SGenRange y r _ _ => String.eqb x y || String.eqb x r
  end.
Lemma lookup_upd_ne {A} x y (v : A) en : String.eqb x y = false -> lookup x (upd y v en) = lookup x en.
Proof.
  intros N. induction en as [|[k w] en IH]; cbn [upd lookup]; [rewrite N; reflexivity|].
  destruct (String.eqb_spec y k) as [->|]; cbn [lookup].
  - rewrite N. reflexivity.
  - destruct (String.eqb x k); auto.
Qed.
Lemma lookup_upd_eq {A} x (v : A) en : lookup x (upd x v en) = Some v.
Proof.
  induction en as [|[k w] en IH]; cbn [upd lookup]; [rewrite String.eqb_refl; reflexivity|].
  destruct (String.eqb x k) eqn:E; cbn [lookup]; [rewrite String.eqb_refl|rewrite E]; auto.
Qed.
Lemma write_back_frame x l : forall os en en', existsb (arg_writes x) l = false -> write_back l os en = Ok en' -> lookup x en' = lookup x en.
Proof.
  induction l as [|[e|y] l IH]; intros [|o os] en en' N E; try discriminate; cbn [write_back existsb arg_writes] in *.
  - injection E as <-. reflexivity.
  - apply (IH os); auto.
  - apply orb_false_iff in N as [N1 N2]. rewrite (IH os _ _ N2 E). apply lookup_upd_ne; auto.
Qed.
Lemma bind_rets_frame x ds : forall vs en en', existsb (String.eqb x) ds = false -> bind_rets ds vs en = Ok en' -> lookup x en' = lookup x en.
Proof.
  induction ds as [|d ds IH]; intros vs en en' N E; cbn [bind_rets existsb] in *.
  - injection E as <-. reflexivity.
  - apply orb_false_iff in N as [N1 N2]. destruct vs as [|v vs]; [discriminate|].
    rewrite (IH vs _ _ N2 E). apply lookup_upd_ne; auto.
Qed.
Section Frame.
  Variables (md : mode) (cl : string -> list val -> res (list val * list val)) (x : string).
  Lemma frame : forall s, writes x s = false -> forall en en', exec md cl s en = Ok en' -> lookup x en' = lookup x en.
  Proof.
    apply (stmt_ind' (fun s => writes x s = false -> forall en en', exec md cl s en = Ok en' -> lookup x en' = lookup x en)).
    - intros y e N en en'. cbn [exec writes] in *. destruct (eval md e en); try discriminate. cbn [bind].
      intros E. injection E as <-. apply lookup_upd_ne; auto.
    - intros y i e N en en'. cbn [exec writes] in *.
      destruct (bind (eval md e en) as_int); try discriminate. cbn [bind].
      destruct (bind (eval md i en) as_int); try discriminate. cbn [bind].
      destruct (bind (get y en) as_arr); try discriminate. cbn [bind].
      destruct (zset a1 a0 a); try discriminate. intros E. injection E as <-. apply lookup_upd_ne; auto.
    - intros ds f l N en en'. cbn [exec writes] in *. apply orb_false_iff in N as [N1 N2].
      destruct (eval_args md l en) as [vs| |]; try discriminate. cbn [bind].
      destruct (cl f vs) as [[rs os]| |]; try discriminate. cbn [bind fst snd].
      destruct (write_back l os en) as [en1| |] eqn:W; try discriminate. cbn [bind]. intros E.
      rewrite (bind_rets_frame x ds _ _ _ N1 E). apply (write_back_frame x l _ _ _ N2 W).
    - intros y lo hi b IH N en en'. cbn [exec writes] in *. apply orb_false_iff in N as [N1 N2].
      destruct (bind (eval md lo en) as_int) as [a| |]; try discriminate. cbn [bind].
      destruct (bind (eval md hi en) as_int) as [c| |]; try discriminate. cbn [bind].
      assert (G : forall en en', exec_list md cl b en = Ok en' -> lookup x en' = lookup x en).
      { clear -IH N2. induction IH as [|s b Hs Hb IHb]; intros en en' E; cbn [exec_list existsb] in *.
        - injection E as <-. reflexivity.
        - apply orb_false_iff in N2 as [N2 N3]. destruct (exec md cl s en) as [en1| |] eqn:E1; try discriminate.
          cbn [bind] in E. rewrite (IHb N3 en1 en' E). apply (Hs N2 en en1 E1). }
      generalize (Z.to_nat (c - a)) as n. intros n. revert a en.
      induction n as [|n IHn]; intros a en E; [injection E as <-; reflexivity|].
      rewrite exec_list_eq in E.
      destruct (exec_list md cl b (upd y (VInt a) en)) as [en1| |] eqn:E1; try discriminate.
      cbn [bind] in E. rewrite (IHn _ _ E), (G _ _ E1). apply lookup_upd_ne; auto.
    - intros y r lo hi N en en'. cbn [exec writes] in *. apply orb_false_iff in N as [N1 N2].
      destruct (bind (eval md lo en) as_int) as [a| |]; try discriminate. cbn [bind].
      destruct (bind (eval md hi en) as_int) as [c| |]; try discriminate. cbn [bind].
      destruct (bind (get r en) as_arr) as [ds| |]; try discriminate. cbn [bind].
      destruct (c <=? a); try discriminate. destruct ds as [|d ds]; try discriminate.
      intros E. injection E as <-. rewrite !lookup_upd_ne by auto. reflexivity.
    - intros y t N en en'. cbn [exec writes] in *. destruct (bind (get y en) as_arr); try discriminate. cbn [bind].
      intros E. injection E as <-. apply lookup_upd_ne; auto.
    - intros y u p n e N en en'. cbn [exec writes] in *. destruct (bind (eval md e en) as_int); try discriminate. cbn [bind].
      destruct (bind (get y en) as_arr); try discriminate. cbn [bind].
      intros E. injection E as <-. apply lookup_upd_ne; auto.
  Qed.
  Lemma frame_list l : existsb (writes x) l = false -> forall en en', exec_list md cl l en = Ok en' -> lookup x en' = lookup x en.
  Proof.
    induction l as [|s l IH]; intros N en en' E; cbn [exec_list existsb] in *.
    - injection E as <-. reflexivity.
    - apply orb_false_iff in N as [N1 N2]. destruct (exec md cl s en) as [en1| |] eqn:E1; try discriminate.
      cbn [bind] in E. rewrite (IH N2 _ _ E). apply (frame s N1 _ _ E1).
  Qed.
End Frame.

(** ** The exponents *)
Definition xresult (F : fld) (quartic : option Z) (body : list stmt) (k : string) : option Z :=
  match xlist (lit F "F::one") quartic body [("self", XE 1 false)] with
  | Some en => match lookup k en with Some (XE e true) => Some e | _ => None end
  | None => None
  end.
Definition body_of (F : fld) (f : string) : list stmt :=
  match lookup f (fl_tbl F) with Some fn => f_body fn | None => [] end.
Definition pow_fields : list fld := [e221_3; e222_117; e255_19; e382_105; e383_187; e414_17; e511_187; e521_1].
Definition five_fields : list fld := [e221_3; e255_19; e383_187; e511_187].
Definition is_five (F : fld) : bool := match lookup "F::quartic_legendre" (fl_tbl F) with Some _ => true | None => false end.
Lemma pow_all F : In F pow_fields -> In F all_fields.
Proof. cbn. tauto. Qed.
Lemma five_pow F : In F five_fields -> In F pow_fields.
Proof. cbn. tauto. Qed.

Definition opt_is (o : option Z) (z : Z) : bool := match o with Some e => e =? z | None => false end.
Definition powers_ok (F : fld) : bool :=
  opt_is (xresult F None (body_of F "F::invert") "self") (modulus F - 2) &&
  opt_is (xresult F None (body_of F "F::legendre") "out") ((modulus F - 1) / 2) &&
  (if is_five F then
     opt_is (xresult F None (body_of F "F::quartic_legendre") "out") ((modulus F - 1) / 4) &&
     negb (existsb (writes "self") (body_of F "F::quartic_legendre"))
   else opt_is (xresult F None (body_of F "F::sqrt") "out") ((modulus F + 1) / 4) &&
     negb (existsb (writes "self") (body_of F "F::sqrt"))) &&
  negb (existsb (writes "self") (body_of F "F::legendre")).
Lemma powers_checked : forallb powers_ok pow_fields = true.
Proof. vm_cast_no_check (eq_refl true). Qed.

Lemma loose_pow_safe F a : In F pow_fields -> loose F a -> pow_safe F a.
Proof.
  intros H L. pose proof (loose_wide F a (pow_all F H) L) as W.
  destruct H as [<-|[<-|H]]; [right|left; split; auto|];
    [split; [discriminate|split; [discriminate|auto]]|].
  right. split; [|split; [|auto]]; intros E; apply (f_equal fl_C) in E;
    repeat (destruct H as [<-|H]; [discriminate E|]); destruct H.
Qed.
Lemma one_pow_safe F : In F pow_fields -> pow_safe F (to_words F 1).
Proof.
  intros HF. apply loose_pow_safe; auto. pose proof (pow_all F HF) as H.
  apply tight_loose; auto. apply to_words_tight; auto.
  pose proof (modulus_pos F H). destruct (layout_facts F H) as (_ & _ & _ & C & _). unfold modulus in *. lia.
Qed.

Section Run.
  Variables (F : fld) (a : list Z).
  Hypothesis HP : In F pow_fields.
  Let HF : In F all_fields := pow_all F HP.
  Hypothesis PA : pow_safe F a.
  Definition power_of (e : Z) (o : list Z) : Prop := pow_safe F o /\ fresh F o /\ eqmod F (value F o) (value F a ^ e).

  Lemma body_power body k e : xresult F None body k = Some e ->
    exists en o, (forall md fuel, (2 <= fuel)%nat -> exec_list md (call md no_base (fl_tbl F) fuel) body [("self", VArr a)] = Ok en) /\
      lookup k en = Some (VArr o) /\ power_of e o.
  Proof.
    unfold xresult. rewrite (proj1 (proj2 (lits_ok F HF))).
    destruct (xlist (to_words F 1) None body [("self", XE 1 false)]) as [xe|] eqn:X; [|discriminate].
    intros E.
    destruct (xlist_sound F (value F a) None HF ltac:(discriminate) (one_pow_safe F HP) body
      [("self", VArr a)] [("self", XE 1 false)] xe) as (en & Ex & R); [|exact X|].
    { constructor; [|constructor]. split; [reflexivity|]. split; [lia|]. exists a. split; auto. split; auto.
      split; [discriminate|]. rewrite Z.pow_1_r. reflexivity. }
    destruct (lookup k xe) as [[e' [|]|]|] eqn:L; try discriminate. injection E as ->.
    destruct (rele_lookup F (value F a) en xe k _ R L) as (v & Lv & V).
    destruct V as (_ & o & -> & Po & Fo & Eo). exists en, o. split; [exact Ex|]. split; [exact Lv|].
    split; auto.
  Qed.
  (* a method returning a power in the variable [out] *)
  Lemma out_power f e : lookup f (fl_tbl F) = Some (mkfunc ["self"] (body_of F f) [EVar "out"]) ->
    existsb (writes "self") (body_of F f) = false -> xresult F None (body_of F f) "out" = Some e ->
    exists o, runsd 3 F f [VArr a] [VArr o] [VArr a] /\ power_of e o.
  Proof.
    intros L W X.
    destruct (body_power (body_of F f) "out" e X) as (en & o & Ex & Lo & Po).
    exists o. split; [|exact Po]. apply (call_step _ _ _ _ _ _ _ L). intros md fuel Hf. specialize (Ex md fuel Hf).
    unfold run_func. cbn [f_params f_body f_rets List.length Nat.eqb combine]. rewrite Ex. cbn [bind evals eval gets]. unfold get.
    rewrite Lo, (frame_list _ _ "self" _ W _ _ Ex). reflexivity.
  Qed.
  (* a method raising its argument to a power *)
  Lemma self_power f e : lookup f (fl_tbl F) = Some (mkfunc ["self"] (body_of F f) []) ->
    xresult F None (body_of F f) "self" = Some e ->
    exists o, runsd 3 F f [VArr a] [] [VArr o] /\ power_of e o.
  Proof.
    intros L X.
    destruct (body_power (body_of F f) "self" e X) as (en & o & Ex & Lo & Po).
    exists o. split; [|exact Po]. apply (call_step _ _ _ _ _ _ _ L). intros md fuel Hf. specialize (Ex md fuel Hf).
    unfold run_func. cbn [f_params f_body f_rets List.length Nat.eqb combine]. rewrite Ex. cbn [bind evals eval gets]. unfold get.
    rewrite Lo. reflexivity.
  Qed.
End Run.
Lemma opt_is_some o z : opt_is o z = true -> o = Some z.
Proof. destruct o as [e|]; cbn; [|discriminate]. intros E. apply Z.eqb_eq in E. congruence. Qed.
Definition three_fields : list fld := [e222_117; e382_105; e414_17; e521_1].
Lemma three_pow F : In F three_fields -> In F pow_fields.
Proof. cbn. tauto. Qed.
Lemma three_not_five F : In F three_fields -> is_five F = false.
Proof. intros H. by_field H. Qed.
Lemma five_is_five F : In F five_fields -> is_five F = true.
Proof. intros H. by_field H. Qed.
Lemma powers F : In F pow_fields ->
  xresult F None (body_of F "F::invert") "self" = Some (modulus F - 2) /\
  xresult F None (body_of F "F::legendre") "out" = Some ((modulus F - 1) / 2) /\
  existsb (writes "self") (body_of F "F::legendre") = false /\
  (In F five_fields -> xresult F None (body_of F "F::quartic_legendre") "out" = Some ((modulus F - 1) / 4) /\
     existsb (writes "self") (body_of F "F::quartic_legendre") = false) /\
  (In F three_fields -> xresult F None (body_of F "F::sqrt") "out" = Some ((modulus F + 1) / 4) /\
     existsb (writes "self") (body_of F "F::sqrt") = false).
Proof.
  intros H. pose proof (proj1 (forallb_forall _ _) powers_checked F H) as K. unfold powers_ok in K.
  rewrite !andb_true_iff in K. destruct K as (((K1 & K2) & K3) & K4).
  apply opt_is_some in K1, K2. apply negb_true_iff in K4. split; [exact K1|]. split; [exact K2|]. split; [exact K4|].
  split; intros G.
  - rewrite (five_is_five F G), andb_true_iff in K3. destruct K3 as [K3 K5]. apply opt_is_some in K3. apply negb_true_iff in K5. auto.
  - rewrite (three_not_five F G), andb_true_iff in K3. destruct K3 as [K3 K5]. apply opt_is_some in K3. apply negb_true_iff in K5. auto.
Qed.

Lemma invert_power F a : In F pow_fields -> pow_safe F a ->
  exists o, runsd 3 F "F::invert" [VArr a] [] [VArr o] /\ power_of F a (modulus F - 2) o.
Proof.
  intros H P. apply self_power; auto; [|apply (powers F H)]. revert H. clear. intros H. by_field H.
Qed.
Lemma legendre_power F a : In F pow_fields -> pow_safe F a ->
  exists o, runsd 3 F "F::legendre" [VArr a] [VArr o] [VArr a] /\ power_of F a ((modulus F - 1) / 2) o.
Proof.
  intros H P. destruct (powers F H) as (_ & X & W & _). apply out_power; auto. revert H. clear. intros H. by_field H.
Qed.
Lemma quartic_power F a : In F five_fields -> pow_safe F a ->
  exists o, runsd 3 F "F::quartic_legendre" [VArr a] [VArr o] [VArr a] /\ power_of F a ((modulus F - 1) / 4) o.
Proof.
  intros H P. pose proof (five_pow F H) as HP. destruct (powers F HP) as (_ & _ & _ & X & _). destruct (X H) as (X1 & W).
  apply out_power; auto. revert H. clear. intros H. by_field H.
Qed.
Lemma sqrt3_power F a : In F three_fields -> pow_safe F a ->
  exists o, runsd 3 F "F::sqrt" [VArr a] [VArr o] [VArr a] /\ power_of F a ((modulus F + 1) / 4) o.
Proof.
  intros H P. pose proof (three_pow F H) as HP. destruct (powers F HP) as (_ & _ & _ & _ & X). destruct (X H) as (X1 & W).
  apply out_power; auto. revert H. clear. intros H. by_field H.
Qed.
Lemma inverted_runs F a o : In F pow_fields -> runsd 3 F "F::invert" [VArr a] [] [VArr o] ->
  runsd 4 F "F::inverted" [VArr a] [VArr o] [VArr a].
Proof.
  intros H R. apply (call_step _ _ _ Src_e221_3.f_inverted); [revert H; clear; intros H; by_field H|].
  intros md fuel Hf. unfold Src_e221_3.f_inverted. evm. callee R. reflexivity.
Qed.
Lemma inverted_power F a : In F pow_fields -> pow_safe F a ->
  exists o, runsd 4 F "F::inverted" [VArr a] [VArr o] [VArr a] /\ power_of F a (modulus F - 2) o.
Proof.
  intros H P. destruct (invert_power F a H P) as (o & R & Po). exists o. split; [|exact Po].
  apply (call_step _ _ _ Src_e221_3.f_inverted); [revert H; clear; intros H; by_field H|].
  intros md fuel Hf. unfold Src_e221_3.f_inverted. evm. callee R. reflexivity.
Qed.
Lemma div_power F a b : In F pow_fields -> pow_safe F a -> pow_safe F b ->
  exists o, runsd 5 F "F::div_assign(&F)" [VArr a; VArr b] [] [VArr o; VArr b] /\
    pow_safe F o /\ fresh F o /\ eqmod F (value F o) (value F a * value F b ^ (modulus F - 2)).
Proof.
  intros H A P. pose proof (pow_all F H) as HF. destruct (inverted_power F b H P) as (i & R & Pi & Fi & Ei).
  destruct (pow_mul F a i HF A Pi) as (o & Ro & Po & Fo & Eo). exists o. split; [|split; [exact Po|split; [exact Fo|]]].
  - apply (call_step _ _ _ Src_e221_3.f_div_assign_ref); [revert H; clear; intros H; by_field H|].
    intros md fuel Hf. unfold Src_e221_3.f_div_assign_ref. evm. callee R. callee Ro. reflexivity.
  - refine (eq_trans Eo _). apply eqmod_mul; auto. reflexivity.
Qed.

(** ** Square roots when p = 5 mod 8 *)
Definition sqrt_tail (one mh co : list Z) (t : string) : list stmt := [
  SCall ["coeff"] "F::quartic_legendre" [AVal (EVar "self")];
  SCall [] "F::sub_assign(&F)" [AMut "coeff"; AVal (ELit one)];
  SCall [] "F::mul_assign(&F)" [AMut "coeff"; AVal (ELit mh)];
  SCall [] "F::mul_assign(&F)" [AMut "coeff"; AVal (ELit co)];
  SCall [] "F::add_assign(&F)" [AMut "coeff"; AVal (ELit one)];
  SCall [t] "(&F)::mul(&F)" [AVal (EVar "out"); AVal (EVar "coeff")]].
Definition sqrt_head (F : fld) : list stmt := firstn (List.length (body_of F "F::sqrt") - 6) (body_of F "F::sqrt").
Definition half_lit (F : fld) : list Z :=
  match nth_error (body_of F "F::sqrt") (List.length (body_of F "F::sqrt") - 4) with
  | Some (SCall _ _ [_; AVal (ELit l)]) => l | _ => [] end.
Definition coeff_lit (F : fld) : list Z :=
  match nth_error (body_of F "F::sqrt") (List.length (body_of F "F::sqrt") - 3) with
  | Some (SCall _ _ [_; AVal (ELit l)]) => l | _ => [] end.
Definition tmp_name (F : fld) : string :=
  match nth_error (body_of F "F::sqrt") (List.length (body_of F "F::sqrt") - 1) with
  | Some (SCall [t] _ _) => t | _ => "" end.
Lemma sqrt5_body F : In F five_fields -> lookup "F::sqrt" (fl_tbl F) = Some (mkfunc ["self"]
  (sqrt_head F ++ sqrt_tail (lit F "F::one") (half_lit F) (coeff_lit F) (tmp_name F)) [EVar (tmp_name F)]).
Proof. intros H. by_field H. Qed.
Definition tightb (F : fld) (l : list Z) : bool :=
  Nat.eqb (List.length l) (fl_n F) && forallb (fun x => (0 <=? x) && (x <? 2 ^ fl_w F)) (firstn (fl_n F - 1) l) &&
  (0 <=? top F l) && (top F l <? 2 ^ fl_tb F).
Definition sqrt5_ok (F : fld) : bool :=
  opt_is (xresult F None (sqrt_head F) "out") ((modulus F + 3) / 8) &&
  negb (existsb (writes "self") (sqrt_head F)) &&
  words_eqb (half_lit F) (to_words F (modulus F - (modulus F + 1) / 2)) &&
  words_eqb (coeff_lit F) (to_words F (value F (coeff_lit F))) &&
  (0 <=? value F (coeff_lit F)) && (value F (coeff_lit F) <? 2 ^ nbits F) &&
  (((value F (coeff_lit F) + 1) ^ 2 + 1) mod modulus F =? 0) &&
  (* the scratch name is none of the others *)
  negb (existsb (String.eqb (tmp_name F)) ["self"; "out"; "coeff"]) &&
  negb (existsb (fun s => String.eqb s (tmp_name F)) ["self"; "out"; "coeff"]).
Lemma sqrt5_checked : forallb sqrt5_ok five_fields = true.
Proof. vm_cast_no_check (eq_refl true). Qed.
(** the square root of -1 (plus one is added by the code) *)
Definition sqrt_m1 (F : fld) : Z := value F (coeff_lit F) + 1.
Lemma ref_mul_body F : In F all_fields -> lookup "(&F)::mul(&F)" (fl_tbl F) = Some Src_e221_3.f_ref_mul_ref.
Proof. intros H. by_field H. Qed.
Lemma five_not F : In F five_fields -> F <> e222_117 /\ F <> e251_9.
Proof. intros H. split; intros E; apply (f_equal fl_C) in E; repeat (destruct H as [<-|H]; [discriminate E|]); destruct H. Qed.
Lemma sqrt5_power F a : In F five_fields -> pow_safe F a ->
  exists o, runsd 4 F "F::sqrt" [VArr a] [VArr o] [VArr a] /\ pow_safe F o /\ fresh F o /\
    eqmod F (value F o) (value F a ^ ((modulus F + 3) / 8) *
      ((value F a ^ ((modulus F - 1) / 4) - 1) * (modulus F - (modulus F + 1) / 2) * value F (coeff_lit F) + 1)).
Proof.
  intros H P. pose proof (five_pow F H) as HP. pose proof (pow_all F HP) as HF. destruct (five_not F H) as [N1 N2].
  pose proof (proj1 (forallb_forall _ _) sqrt5_checked F H) as K. unfold sqrt5_ok in K. rewrite !andb_true_iff in K.
  destruct K as ((((((((K1 & K2) & K3) & K4) & K5) & K6) & _) & K8) & K9).
  apply opt_is_some in K1. apply negb_true_iff in K2. apply words_eqb_eq in K3, K4. apply Z.leb_le in K5. apply Z.ltb_lt in K6.
  apply negb_true_iff in K8, K9. cbn [existsb] in K8, K9. rewrite !orb_false_iff in K8, K9.
  destruct K8 as (T1 & T2 & T3 & _). destruct K9 as (S1 & S2 & S3 & _).
  assert (TM : tight F (half_lit F)).
  { rewrite K3. apply to_words_tight; auto. pose proof (modulus_pos F HF). destruct (layout_facts F HF) as (_ & _ & _ & C & _).
    assert (0 <= (modulus F + 1) / 2 <= modulus F) by (split; [apply Z.div_pos; lia|apply Z.div_le_upper_bound; lia]).
    unfold modulus in *. lia. }
  assert (TC : tight F (coeff_lit F)) by (rewrite K4; apply to_words_tight; auto).
  assert (T1' : tight F (to_words F 1)).
  { apply to_words_tight; auto. pose proof (modulus_pos F HF). destruct (layout_facts F HF) as (_ & _ & _ & C & _). unfold modulus in *. lia. }
  assert (WIDE : forall l, tight F l -> wide F l) by (intros; apply loose_wide, tight_loose; auto).
  pose proof (B_pos F HF) as BP. pose proof (W_big F HF) as WB. fold (B F) in WB.
  destruct (body_power F a HP P (sqrt_head F) "out" _ K1) as (en & x & Ex & Lx & Px & Fx & Vx).
  destruct (quartic_power F a H P) as (q & Rq & Pq & Fq & Vq).
  destruct (sub_ok F q (to_words F 1) HF (wide_any F _ HF (fresh_wide F q HF Fq)) (tight_any F _ HF T1')) as (c1 & R1 & Q1 & V1).
  assert (W1 : wide F c1) by (apply (wide_intro F _ _ _ Q1); lia).
  destruct (mul_ok F c1 (half_lit F) HF) as (c2 & R2 & Q2 & V2 & _); [apply safe_wide; auto|].
  assert (W2 : wide F c2) by (apply fresh_wide; auto).
  destruct (mul_ok F c2 (coeff_lit F) HF) as (c3 & R3 & Q3 & V3 & _); [apply safe_wide; auto|].
  assert (W3 : wide F c3) by (apply fresh_wide; auto).
  destruct (add_ok F c3 (to_words F 1) HF (wide_any F _ HF W3) (tight_any F _ HF T1')) as (c4 & R4 & Q4 & V4 & _).
  assert (W4 : wide F c4) by (apply (wide_intro F _ _ _ Q4); lia).
  destruct (mul_ok F x c4 HF) as (o & Ro & Qo & Vo & _); [apply safe_wide; auto; apply fresh_wide; auto|].
  exists o. split; [|split; [|split; [exact Qo|]]].
  - apply (call_step _ _ _ _ _ _ _ (sqrt5_body F H)). intros md fuel Hf. specialize (Ex md fuel ltac:(lia)).
    assert (RM : runsd 2 F "(&F)::mul(&F)" [VArr x; VArr c4] [VArr o] [VArr x; VArr c4]).
    { apply (call_step _ _ _ _ _ _ _ (ref_mul_body F HF)). intros md' fuel' Hf'. unfold Src_e221_3.f_ref_mul_ref. evm. callee Ro. reflexivity. }
    unfold run_func. cbn [f_params f_body f_rets List.length Nat.eqb combine].
    rewrite exec_list_app, Ex. cbn [bind]. pose proof (frame_list _ _ "self" _ K2 _ _ Ex) as Ls. cbn [lookup String.eqb Ascii.eqb Bool.eqb] in Ls.
    unfold sqrt_tail. rewrite (proj1 (proj2 (lits_ok F HF))).
    generalize dependent (tmp_name F). intros t TT1 TT2 TT3 SS1 SS2 SS3.
    cbn [exec_list exec eval_args eval]. unfold get. rewrite Ls. cbn [bind]. rewrite Rq by lia.
    cbn [bind fst snd write_back bind_rets]. rewrite lookup_upd_eq. cbn [bind]. rewrite R1 by lia.
    cbn [bind fst snd write_back bind_rets]. rewrite lookup_upd_eq. cbn [bind]. rewrite R2 by lia.
    cbn [bind fst snd write_back bind_rets]. rewrite lookup_upd_eq. cbn [bind]. rewrite R3 by lia.
    cbn [bind fst snd write_back bind_rets]. rewrite lookup_upd_eq. cbn [bind]. rewrite R4 by lia.
    cbn [bind fst snd write_back bind_rets]. rewrite !lookup_upd_ne by reflexivity. rewrite Lx. cbn [bind].
    rewrite lookup_upd_eq. cbn [bind]. rewrite RM by lia. cbn [bind fst snd write_back bind_rets evals eval gets].
    unfold get. rewrite lookup_upd_eq. cbn [bind]. rewrite lookup_upd_ne by assumption.
    rewrite !lookup_upd_ne by reflexivity. rewrite Ls. reflexivity.
  - right. split; auto. split; auto. apply fresh_wide; auto.
  - refine (eq_trans Vo _). apply eqmod_mul; auto. rewrite V4, (tight_folded F _ HF T1'), to_words_value by auto.
    assert (EA : forall x y z, eqmod F x y -> eqmod F (x + z) (y + z)).
    { unfold eqmod. intros u v z E. rewrite <- Zplus_mod_idemp_l, E, Zplus_mod_idemp_l. reflexivity. }
    apply EA. refine (eq_trans (folded_eqmod F c3) _). refine (eq_trans V3 _). apply eqmod_mul; auto; [|reflexivity].
    refine (eq_trans V2 _). apply eqmod_mul; auto; [|rewrite K3, to_words_value by auto; reflexivity].
    rewrite V1, (tight_folded F _ HF T1'), (tight_carry F _ HF T1'), to_words_value by auto.
    rewrite Z.mul_0_r, Z.add_0_r. rewrite <- !Z.add_opp_r. apply EA. refine (eq_trans (folded_eqmod F q) _). exact Vq.
Qed.
