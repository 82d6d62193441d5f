(** Safety on everything the library produces: no call below overflows, panics or
    leaves the [produced] shape, whether or not its result is the right residue. *)
From Coq Require Import ZArith List String Lia Bool.
From Verif Require Import Lang Poly Kernel Fields Kfacts Ops Words Codec Normalize Methods Surface Forms Format Power Arith Encoding Observe.
From Verif Require Src_e221_3.
Import ListNotations.
Local Open Scope string_scope.
Local Open Scope Z_scope.

Lemma fresh_produced' F a : In F all_fields -> rep F (-1) (mx F) a -> produced F a.
Proof. intros H R. pose proof (B_pos F H). eapply rep_weaken; [exact R|unfold B in *; lia|unfold mx, B; lia]. Qed.
Lemma produced_any F a : In F all_fields -> produced F a -> any_rep F a.
Proof. intros H P. apply wide_any, produced_wide; auto. Qed.

(** ** Multiplication and squaring *)
Lemma mul_safe_checked : forallb (c2 "F::mul_assign(&F)" (fun F => [(- W F, W F, - W F, W F, -1, mx F)])
  (fun _ => 1) (fun _ => XC 0) (fun _ => [])) all_fields = true.
Proof. vm_cast_no_check (eq_refl true). Qed.
Lemma mul_runs F a b : In F all_fields -> wide F a -> wide F b ->
  exists o, runsd 1 F "F::mul_assign(&F)" [VArr a; VArr b] [] [VArr o; VArr b] /\ rep F (-1) (mx F) o.
Proof.
  intros H A Bb. pose proof (all_chk _ mul_safe_checked F H) as K. unfold c2 in K. apply andb_true_iff in K as [Hh K].
  cbn [forallb] in K. rewrite andb_true_r in K.
  destruct (op2 F _ H Hh _ _ _ _ _ _ _ _ _ a b K A Bb) as (o & R & Ro & _). eauto.
Qed.
Lemma square_safe_checked : forallb (c1 "F::square" (fun F => [(- W F, W F, -1, mx F)])
  (fun _ => 1) (fun _ => XC 0) (fun _ => [])) all_fields = true.
Proof. vm_cast_no_check (eq_refl true). Qed.
Lemma square_runs F a : In F all_fields -> wide F a ->
  exists o, runsd 1 F "F::square" [VArr a] [] [VArr o] /\ rep F (-1) (mx F) o.
Proof.
  intros H A. pose proof (all_chk _ square_safe_checked F H) as K. unfold c1 in K. apply andb_true_iff in K as [Hh K].
  cbn [forallb] in K. rewrite andb_true_r in K.
  destruct (op1 F _ H Hh _ _ _ _ _ _ _ a K A) as (o & R & Ro & _). eauto.
Qed.

(** ** Small multiplication *)
Lemma smul_safe_checked : forallb (ci "F::small_mul_assign" (fun F => [(- B F - 1, mx F,
    Z.max (- 2 ^ 31) (- 2 ^ (61 - fl_tb F)), Z.min (2 ^ 31 - 1) (2 ^ (61 - fl_tb F)), loI64, hiI64)]) (fun _ => 1) (fun _ => XC 0)) all_fields = true.
Proof. vm_cast_no_check (eq_refl true). Qed.
Lemma smul_runs F a k : In F all_fields -> produced F a -> is_i32 k -> Z.abs k <= 2 ^ (61 - fl_tb F) ->
  exists o, runsd 1 F "F::small_mul_assign" [VArr a; VInt k] [] [VArr o; VInt k] /\ any_rep F o.
Proof.
  intros H A K1 K2. pose proof (all_chk _ smul_safe_checked F H) as K. unfold ci in K. apply andb_true_iff in K as [Hh K].
  cbn [forallb] in K. rewrite andb_true_r in K. unfold is_i32 in K1.
  destruct (opi F _ H Hh _ _ _ _ _ _ _ _ a k K A) as (o & R & Ro & _); [lia|]. eauto.
Qed.

Definition few (F : fld) : Z := 2 ^ (room F - 2).
Lemma smul_room_checked : forallb (ci "F::small_mul_assign" (fun F => [(- B F - 1, mx F, - few F, few F, - W F, W F)]) (fun _ => 1) (fun _ => XC 0)) all_fields = true.
Proof. vm_cast_no_check (eq_refl true). Qed.
Lemma smul_room_runs F a k : In F all_fields -> produced F a -> Z.abs k <= 2 ^ (room F - 2) ->
  exists o, runsd 1 F "F::small_mul_assign" [VArr a; VInt k] [] [VArr o; VInt k] /\ wide F o.
Proof.
  intros H A K2. pose proof (all_chk _ smul_room_checked F H) as K. unfold ci in K. apply andb_true_iff in K as [Hh K].
  cbn [forallb] in K. rewrite andb_true_r in K. fold (few F) in K2.
  destruct (opi F _ H Hh _ _ _ _ _ _ _ _ a k K A) as (o & R & Ro & _); [lia|]. eauto.
Qed.
Lemma few_four F : In F all_fields -> 4 <= 2 ^ (room F - 2).
Proof. intros H. apply Z.leb_le. revert F H. apply all_chk. vm_compute. reflexivity. Qed.
Lemma smul4_runs F a k : In F all_fields -> produced F a -> Z.abs k <= 4 ->
  exists o, runsd 1 F "F::small_mul_assign" [VArr a; VInt k] [] [VArr o; VInt k] /\ wide F o.
Proof. intros H A K. pose proof (few_four F H). apply smul_room_runs; [exact H|exact A|lia]. Qed.

(** ** A syntactic check for methods that only combine field values *)
(** calls that are safe on produced arguments: name, number of arguments and results *)
Definition csafe (F : fld) (d : nat) (f : string) (n m : nat) : Prop :=
  forall args, Forall (fun v => exists l, v = VArr l /\ produced F l) args -> List.length args = n ->
  exists rets outs, runsd d F f args rets outs /\
    Forall (fun v => exists l, v = VArr l /\ produced F l) rets /\ List.length rets = m /\
    Forall (fun v => exists l, v = VArr l /\ produced F l) outs /\ List.length outs = n.
Definition sigs := list (string * (nat * nat)).
Definition producedb (F : fld) (l : list Z) : bool := repb F (- B F - 1) (mx F) l.

Section Check.
  Variable F : fld.
  Variable sg : sigs.
  Definition inb_ (x : string) (vs : list string) : bool := existsb (String.eqb x) vs.
  Definition okexp (vs : list string) (e : expr) : bool :=
    match e with EVar x => inb_ x vs | ELit l => producedb F l | _ => false end.
  Definition okarg (vs : list string) (a : arg) : bool :=
    match a with AVal e => okexp vs e | AMut x => inb_ x vs end.
  (** the variables known to hold produced arrays afterwards *)
  Fixpoint okstmt (s : stmt) (vs : list string) {struct s} : option (list string) :=
    match s with
    | SLet x e => if okexp vs e then Some (x :: vs) else None
    | SCall ds f args =>
        match lookup f sg with
        | Some (n, m) => if Nat.eqb (List.length args) n && Nat.eqb (List.length ds) m && forallb (okarg vs) args
                         then Some (ds ++ vs)%list else None
        | None => None
        end
    | SFor x (EInt _) (EInt _) body =>
        if inb_ x vs then None else
        match (fix go (l : list stmt) (vs : list string) : option (list string) :=
            match l with [] => Some vs | s :: t => match okstmt s vs with Some vs' => go t vs' | None => None end end) body vs with
        | Some vs' => if inb_ x vs' then None else Some vs
        | None => None
        end
    | _ => None
    end.
  Fixpoint oklist (l : list stmt) (vs : list string) : option (list string) :=
    match l with [] => Some vs | s :: t => match okstmt s vs with Some vs' => oklist t vs' | None => None end end.
  Lemma oklist_eq l vs : (fix go (l : list stmt) (vs : list string) : option (list string) :=
      match l with [] => Some vs | s :: t => match okstmt s vs with Some vs' => go t vs' | None => None end end) l vs = oklist l vs.
  Proof. revert vs. induction l as [|s l IH]; intros vs; cbn [oklist]; auto. Qed.
End Check.

Section SafeSound.
  Variables (F : fld) (sg : sigs) (d : nat).
  Hypothesis HF : In F all_fields.
  Hypothesis HS : forall f n m, lookup f sg = Some (n, m) -> csafe F d f n m.
  Let cl md fuel := call md no_base (fl_tbl F) fuel.
  Let good (v : val) := exists l, v = VArr l /\ produced F l.
  Definition holds (vs : list string) (en : env) : Prop := forall x, inb_ x vs = true -> exists v, lookup x en = Some v /\ good v.
  Lemma holds_upd vs en x v : holds vs en -> good v -> holds (x :: vs) (upd x v en).
  Proof.
    intros H G y I. destruct (String.eqb y x) eqn:E.
    - apply String.eqb_eq in E. subst y. exists v. split; auto. apply lookup_upd_eq.
    - cbn [inb_ existsb] in I. unfold inb_ in I. cbn [existsb] in I. rewrite E in I. cbn [orb] in I.
      destruct (H y I) as (w & Lw & Gw). exists w. split; auto. rewrite lookup_upd_ne; auto.
  Qed.
  Lemma holds_int vs en x z : holds vs en -> inb_ x vs = false -> holds vs (upd x (VInt z) en).
  Proof.
    intros H N y I. assert (E : String.eqb y x = false).
    { destruct (String.eqb y x) eqn:E; auto. apply String.eqb_eq in E. subst. congruence. }
    rewrite lookup_upd_ne; auto.
  Qed.
  Lemma holds_weaken vs vs' en : (forall x, inb_ x vs = true -> inb_ x vs' = true) -> holds vs' en -> holds vs en.
  Proof. intros S H x I. apply H. auto. Qed.
  Lemma inb_app x l vs : inb_ x (l ++ vs) = inb_ x l || inb_ x vs.
  Proof. unfold inb_. apply existsb_app. Qed.
  Lemma okexp_run vs en e : holds vs en -> okexp F vs e = true -> exists v, (forall md, eval md e en = Ok v) /\ good v.
  Proof.
    intros H O. destruct e; try discriminate O; cbn [okexp] in O.
    - exists (VArr l). split; auto. exists l. split; auto. apply repb_ok. exact O.
    - destruct (H x O) as (v & Lv & Gv). exists v. split; auto. intros md. cbn [eval]. unfold get. rewrite Lv. reflexivity.
  Qed.
  Lemma okargs_run vs en args : holds vs en -> forallb (okarg F vs) args = true ->
    exists ws, (forall md, eval_args md args en = Ok ws) /\ Forall good ws /\ List.length ws = List.length args.
  Proof.
    intros H. induction args as [|a args IH]; intros O.
    - exists []. cbn [eval_args]. auto.
    - cbn [forallb] in O. apply andb_true_iff in O as [O1 O2]. destruct (IH O2) as (ws & E & G & L).
      assert (exists v, (forall md, (match a with AVal e => eval md e en | AMut x => get x en end) = Ok v) /\ good v) as (v & Ev & Gv).
      { destruct a; cbn [okarg] in O1; [apply (okexp_run vs); auto|].
        destruct (H x O1) as (v & Lv & Gv). exists v. split; auto. intros md. unfold get. rewrite Lv. reflexivity. }
      exists (v :: ws). split; [intros md; cbn [eval_args]; rewrite Ev; cbn [bind]; rewrite E; reflexivity|]. split; [constructor; auto|].
      cbn [List.length]. congruence.
  Qed.
  Lemma back_run vs args : forall outs en, holds vs en -> forallb (okarg F vs) args = true -> Forall good outs -> List.length outs = List.length args ->
    exists en', write_back args outs en = Ok en' /\ holds vs en'.
  Proof.
    induction args as [|a args IH]; intros outs en H O G L; destruct outs as [|v outs]; try discriminate L.
    - exists en. auto.
    - cbn [forallb] in O. apply andb_true_iff in O as [O1 O2]. inversion G as [|? ? G1 G2]; subst. injection L as L.
      destruct a as [e|x]; cbn [write_back].
      + apply IH; auto.
      + destruct (IH outs (upd x v en)) as (en' & E & H'); auto; [|eauto].
        apply (holds_weaken vs (x :: vs)); [|apply holds_upd; auto].
        intros y I. unfold inb_ in *. cbn [existsb]. rewrite I. apply orb_true_r.
  Qed.
  Lemma rets_run ds : forall rets vs en, holds vs en -> Forall good rets -> List.length rets = List.length ds ->
    exists en', bind_rets ds rets en = Ok en' /\ holds (ds ++ vs) en'.
  Proof.
    induction ds as [|x ds IH]; intros rets vs en H G L; destruct rets as [|v rets]; try discriminate L.
    - exists en. auto.
    - inversion G as [|? ? G1 G2]; subst. injection L as L. cbn [bind_rets].
      destruct (IH rets (x :: vs) (upd x v en)) as (en' & E & H'); auto; [apply holds_upd; auto|].
      exists en'. split; auto. eapply holds_weaken; [|exact H']. intros y I.
      rewrite inb_app. change (inb_ y ((x :: ds) ++ vs)) with (String.eqb y x || inb_ y (ds ++ vs)) in I. rewrite inb_app in I.
      change (inb_ y (x :: vs)) with (String.eqb y x || inb_ y vs). destruct (String.eqb y x), (inb_ y ds), (inb_ y vs); auto.
  Qed.
  Lemma okstmt_run s : forall vs vs' en, okstmt F sg s vs = Some vs' -> holds vs en ->
    exists en', (forall md fuel, (d <= fuel)%nat -> exec md (cl md fuel) s en = Ok en') /\ holds vs' en' /\ (forall x, inb_ x vs = true -> inb_ x vs' = true).
  Proof.
    induction s as [x e|a i e|ds f args|x lo hi body H|x r lo hi|f0 s0|f0 u p b e] using stmt_ind'; intros vs vs' en O Hv; try discriminate O.
    - cbn [okstmt] in O. destruct (okexp F vs e) eqn:Oe; [|discriminate]. injection O as <-.
      destruct (okexp_run vs en e Hv Oe) as (v & Ev & Gv). exists (upd x v en). split; [intros md fuel Hd; cbn [exec]; rewrite Ev; reflexivity|]. split; [apply holds_upd; auto|]. intros y I. unfold inb_ in *. cbn [existsb]. rewrite I. apply orb_true_r.
    - cbn [okstmt] in O. destruct (lookup f sg) as [[n m]|] eqn:Lf; [|discriminate].
      destruct (Nat.eqb (List.length args) n) eqn:L1; [|discriminate]. destruct (Nat.eqb (List.length ds) m) eqn:L2; [|discriminate].
      destruct (forallb (okarg F vs) args) eqn:Oa; [|discriminate]. cbn [andb] in O. injection O as <-.
      apply Nat.eqb_eq in L1, L2.
      destruct (okargs_run vs en args Hv Oa) as (ws & Ew & Gw & Lw).
      destruct (HS f n m Lf ws Gw ltac:(congruence)) as (rets & outs & R & G1 & M1 & G2 & M2).
      destruct (back_run vs args outs en Hv Oa G2 ltac:(congruence)) as (en1 & E1 & H1).
      destruct (rets_run ds rets vs en1 H1 G1 ltac:(congruence)) as (en2 & E2 & H2).
      exists en2. split; [intros md fuel Hd; cbn [exec]; rewrite Ew; cbn [bind]; unfold cl; rewrite R by exact Hd; cbn [bind fst snd]; rewrite E1; exact E2|]. split; auto. intros y I. rewrite inb_app, I. apply orb_true_r.
    - cbn [okstmt] in O. destruct lo; try discriminate O. destruct hi; try discriminate O.
      destruct (inb_ x vs) eqn:Nx; [discriminate|]. rewrite oklist_eq in O. destruct (oklist F sg body vs) as [vb|] eqn:Ob; [|discriminate].
      destruct (inb_ x vb) eqn:Nb; [discriminate|]. injection O as <-.
      assert (Body : forall l vs1 vs2 en1, Forall (fun s => forall vs vs' en, okstmt F sg s vs = Some vs' -> holds vs en ->
          exists en', (forall md fuel, (d <= fuel)%nat -> exec md (cl md fuel) s en = Ok en') /\ holds vs' en' /\ (forall x, inb_ x vs = true -> inb_ x vs' = true)) l ->
        oklist F sg l vs1 = Some vs2 -> holds vs1 en1 ->
        exists en2, (forall md fuel, (d <= fuel)%nat -> exec_list md (cl md fuel) l en1 = Ok en2) /\ holds vs2 en2 /\ (forall x, inb_ x vs1 = true -> inb_ x vs2 = true)).
      { clear. induction l as [|s l IH]; intros vs1 vs2 en1 Fa O Hv; cbn [oklist exec_list] in *.
        - injection O as <-. eauto.
        - inversion Fa as [|? ? F1 F2]; subst. destruct (okstmt F sg s vs1) as [vm|] eqn:Om; [|discriminate].
          destruct (F1 _ _ _ Om Hv) as (em & Em & Hm & Sm). destruct (IH _ _ _ F2 O Hm) as (e2 & E2 & H2 & S2).
          exists e2. split; [intros md fuel Hd; cbn [exec_list]; rewrite (Em md fuel Hd); cbn [bind]; apply E2; exact Hd|auto]. }
      assert (Loop : forall n i en1, holds vs en1 -> exists en2, (forall md fuel, (d <= fuel)%nat -> loop_from md (cl md fuel) x body n i en1 = Ok en2) /\ holds vs en2).
      { induction n as [|n IHn]; intros i en1 H1; cbn [loop_from]; [eauto|].
        destruct (Body body vs vb (upd x (VInt i) en1) H Ob) as (e2 & E2 & H2 & S2); [apply holds_int; auto|].
        destruct (IHn (i + 1) e2) as (e3 & E3 & H3); [eapply holds_weaken; [exact S2|exact H2]|].
        exists e3. split; auto. intros md fuel Hd. rewrite (E2 md fuel Hd). cbn [bind]. apply E3. exact Hd. }
      destruct (Loop (Z.to_nat (z0 - z)) z en Hv) as (e2 & E2 & H2). exists e2. split; [|auto].
      intros md fuel Hd. rewrite (exec_for _ _ _ _ _ _ _ z z0) by reflexivity. apply E2. exact Hd.
  Qed.
  Lemma oklist_run l : forall vs vs' en, oklist F sg l vs = Some vs' -> holds vs en ->
    exists en', (forall md fuel, (d <= fuel)%nat -> exec_list md (cl md fuel) l en = Ok en') /\ holds vs' en' /\ (forall x, inb_ x vs = true -> inb_ x vs' = true).
  Proof.
    induction l as [|s l IH]; intros vs vs' en O Hv; cbn [oklist exec_list] in *.
    - injection O as <-. eauto.
    - destruct (okstmt F sg s vs) as [vm|] eqn:Om; [|discriminate].
      destruct (okstmt_run s _ _ _ Om Hv) as (em & Em & Hm & Sm). destruct (IH _ _ _ O Hm) as (e2 & E2 & H2 & S2).
      exists e2. split; [intros md fuel Hd; cbn [exec_list]; rewrite (Em md fuel Hd); cbn [bind]; apply E2; exact Hd|auto].
  Qed.
End SafeSound.

Definition okfunc (F : fld) (sg : sigs) (fn : func) (n m : nat) : bool :=
  Nat.eqb (List.length (f_params fn)) n && Nat.eqb (List.length (f_rets fn)) m &&
  match oklist F sg (f_body fn) (f_params fn) with
  | Some vs => forallb (okexp F vs) (f_rets fn) && forallb (fun x => inb_ x vs) (f_params fn)
  | None => false
  end.
Fixpoint nodupb (l : list string) : bool := match l with [] => true | x :: t => negb (inb_ x t) && nodupb t end.
Lemma combine_holds F ps : forall vs, Forall (fun v => exists l, v = VArr l /\ produced F l) vs -> List.length vs = List.length ps ->
  holds F ps (combine ps vs).
Proof.
  induction ps as [|p ps IH]; intros vs G L x I; destruct vs as [|v vs]; try discriminate L; [discriminate I|].
  inversion G as [|? ? G1 G2]; subst. injection L as L. cbn [combine lookup].
  change (inb_ x (p :: ps)) with (String.eqb x p || inb_ x ps) in I. destruct (String.eqb x p) eqn:E.
  - exists v. auto.
  - apply IH; auto.
Qed.
Lemma okfunc_csafe F sg d f fn n m : In F all_fields -> (forall f n m, lookup f sg = Some (n, m) -> csafe F d f n m) ->
  lookup f (fl_tbl F) = Some fn -> okfunc F sg fn n m = true -> csafe F (S d) f n m.
Proof.
  intros HF HS Lf O args G La. unfold okfunc in O. rewrite !andb_true_iff in O. destruct O as ((L1 & L2) & O).
  apply Nat.eqb_eq in L1, L2. destruct (oklist F sg (f_body fn) (f_params fn)) as [vs|] eqn:Ob; [|discriminate].
  apply andb_true_iff in O as [O1 O2].
  destruct (oklist_run F sg d HS _ _ _ (combine (f_params fn) args) Ob) as (en & E & H & _); [apply combine_holds; auto; congruence|].
  assert (exists rets, (forall md, evals md (f_rets fn) en = Ok rets) /\ Forall (fun v => exists l, v = VArr l /\ produced F l) rets /\
    List.length rets = List.length (f_rets fn)) as (rets & R1 & R2 & R3).
  { clear -O1 H HF HS. induction (f_rets fn) as [|e es IH]; [exists []; auto|]. cbn [forallb] in O1. apply andb_true_iff in O1 as [O1 O2].
    destruct (IH O2) as (rs & A & Bb & C). destruct (okexp_run F vs en e H O1) as (v & Ev & Gv).
    exists (v :: rs). split; [intros md; cbn [evals]; rewrite Ev; cbn [bind]; rewrite A; reflexivity|]. split; [constructor; auto|]. cbn [List.length]. congruence. }
  assert (exists outs, gets (f_params fn) en = Ok outs /\ Forall (fun v => exists l, v = VArr l /\ produced F l) outs /\
    List.length outs = List.length (f_params fn)) as (outs & S1 & S2 & S3).
  { clear -O2 H HF HS. induction (f_params fn) as [|e es IH]; [exists []; auto|]. cbn [forallb] in O2. apply andb_true_iff in O2 as [O1 O2].
    destruct (IH O2) as (rs & A & Bb & C). destruct (H e O1) as (v & Ev & Gv).
    exists (v :: rs). split; [cbn [gets]; unfold get at 1; rewrite Ev; cbn [bind]; rewrite A; reflexivity|]. split; [constructor; auto|]. cbn [List.length]. congruence. }
  exists rets, outs. split; [|split; [exact R2|split; [congruence|split; [exact S2|congruence]]]].
  apply (call_step _ _ _ _ _ _ _ Lf). intros md fuel Hf. unfold run_func. rewrite La, L1, Nat.eqb_refl.
  rewrite E by exact Hf. cbn [bind]. rewrite R1. cbn [bind]. rewrite S1. reflexivity.
Qed.

(** ** The methods built from the four arithmetic kernels *)
Definition kernels : sigs :=
  [("F::add_assign(&F)", (2, 0)%nat); ("F::sub_assign(&F)", (2, 0)%nat); ("F::mul_assign(&F)", (2, 0)%nat); ("F::square", (1, 0)%nat)].
Definition kernels_ok F f n m : In F all_fields -> lookup f kernels = Some (n, m) -> csafe F 1 f n m.
Proof.
  intros HF L. unfold kernels in L. cbn [lookup] in L. pose proof (B_pos F HF) as BP. pose proof (layout_facts F HF) as (_ & _ & _ & C & _).
  assert (TWO : forall f, (forall a b, produced F a -> produced F b -> exists o,
      runsd 1 F f [VArr a; VArr b] [] [VArr o; VArr b] /\ produced F o) -> csafe F 1 f 2 0).
  { intros g Hg args G La. destruct args as [|x [|y [|]]]; try discriminate La.
    inversion G as [|? ? (a & -> & Pa) G2]; subst. inversion G2 as [|? ? (b & -> & Pb) _]; subst.
    destruct (Hg a b Pa Pb) as (o & R & Po). exists [], [VArr o; VArr b]. split; [exact R|]. split; [constructor|]. split; auto.
    split; auto. constructor; [eauto|constructor; [eauto|constructor]]. }
  destruct (String.eqb_spec f "F::add_assign(&F)") as [->|_]; [injection L as <- <-|].
  { apply TWO. intros a b Pa Pb. destruct (add_ok F a b HF (produced_any F a HF Pa) (produced_any F b HF Pb)) as (o & R & Ro & _).
    exists o. split; auto. eapply rep_weaken; [exact Ro|unfold B in *; lia|unfold B in *; lia]. }
  destruct (String.eqb_spec f "F::sub_assign(&F)") as [->|_]; [injection L as <- <-|].
  { apply TWO. intros a b Pa Pb. destruct (sub_ok F a b HF (produced_any F a HF Pa) (produced_any F b HF Pb)) as (o & R & Ro & _).
    exists o. split; auto. eapply rep_weaken; [exact Ro|unfold B in *; lia|unfold B in *; lia]. }
  destruct (String.eqb_spec f "F::mul_assign(&F)") as [->|_]; [injection L as <- <-|].
  { apply TWO. intros a b Pa Pb. destruct (mul_runs F a b HF (produced_wide F a HF Pa) (produced_wide F b HF Pb)) as (o & R & Ro).
    exists o. split; auto. apply fresh_produced'; auto. }
  destruct (String.eqb_spec f "F::square") as [->|_]; [injection L as <- <-|discriminate].
  intros args G La. destruct args as [|x [|]]; try discriminate La. inversion G as [|? ? (a & -> & Pa) _]; subst.
  destruct (square_runs F a HF (produced_wide F a HF Pa)) as (o & R & Ro).
  exists [], [VArr o]. split; [exact R|]. split; [constructor|]. split; auto. split; auto. constructor; [|constructor].
  exists o. split; auto. apply fresh_produced'; auto.
Qed.

(** methods in an order in which each one only calls earlier ones *)
Fixpoint chain (F : fld) (todo known : sigs) : option sigs :=
  match todo with
  | [] => Some known
  | (f, (n, m)) :: t =>
      match lookup f (fl_tbl F) with
      | Some fn => if okfunc F known fn n m then chain F t ((f, (n, m)) :: known) else None
      | None => chain F t known          (* quartic_legendre exists in four fields only *)
      end
  end.
Lemma csafe_weaken F d f n m : csafe F d f n m -> csafe F (S d) f n m.
Proof. intros H args G L. destruct (H args G L) as (r & o & R & X). exists r, o. split; auto. eapply runsd_weaken; [|exact R]. lia. Qed.
Lemma chain_ok F todo : In F all_fields -> forall d known all, (forall f n m, lookup f known = Some (n, m) -> csafe F d f n m) ->
  chain F todo known = Some all -> forall f n m, lookup f all = Some (n, m) -> csafe F (d + List.length todo) f n m.
Proof.
  intros HF. induction todo as [|[f [n m]] todo IH]; intros d known all HK C g n' m' Lg; cbn [chain] in C.
  - injection C as <-. cbn [List.length]. rewrite Nat.add_0_r. auto.
  - cbn [List.length]. replace (d + S (List.length todo))%nat with (S d + List.length todo)%nat by lia.
    destruct (lookup f (fl_tbl F)) as [fn|] eqn:Lf.
    + destruct (okfunc F known fn n m) eqn:O; [|discriminate]. eapply (IH (S d)); [|exact C|exact Lg].
      intros h n2 m2 Lh. cbn [lookup] in Lh. destruct (String.eqb_spec h f) as [->|].
      * injection Lh as <- <-. eapply okfunc_csafe; eauto.
      * apply csafe_weaken. auto.
    + eapply (IH (S d)); [|exact C|exact Lg]. intros h n2 m2 Lh. apply csafe_weaken. auto.
Qed.
Definition combined : sigs :=
  [("(&F)::add(&F)", (2, 1)%nat); ("(&F)::sub(&F)", (2, 1)%nat); ("(&F)::mul(&F)", (2, 1)%nat); ("F::squared", (1, 1)%nat);
   ("F::invert", (1, 0)%nat); ("F::inverted", (1, 1)%nat); ("F::div_assign(&F)", (2, 0)%nat); ("(&F)::div(&F)", (2, 1)%nat);
   ("F::legendre", (1, 1)%nat); ("F::quartic_legendre", (1, 1)%nat); ("F::sqrt", (1, 1)%nat)].
Definition chain_checked_F (F : fld) : bool :=
  match chain F combined kernels with
  | Some all => forallb (fun '(f, (n, m)) => match lookup f all with Some (n', m') => Nat.eqb n n' && Nat.eqb m m' | None => negb (has f F) end) (kernels ++ combined)
  | None => false
  end.
Lemma chain_checked : forallb chain_checked_F all_fields = true.
Proof. vm_compute. reflexivity. Qed.
Lemma combined_safe F f n m : In F all_fields -> In (f, (n, m)) (kernels ++ combined) -> has f F = true -> csafe F 12 f n m.
Proof.
  intros HF I Hh. pose proof (all_chk _ chain_checked F HF) as K. unfold chain_checked_F in K.
  destruct (chain F combined kernels) as [all|] eqn:C; [|discriminate].
  pose proof (proj1 (forallb_forall _ _) K _ I) as K'. cbn beta iota in K'.
  destruct (lookup f all) as [[n' m']|] eqn:L.
  - apply andb_true_iff in K' as [E1 E2]. apply Nat.eqb_eq in E1, E2. subst n' m'.
    apply (chain_ok F combined HF 1 kernels all (fun f n m => kernels_ok F f n m HF) C f n m L).
  - rewrite Hh in K'. discriminate.
Qed.

(** ** The observers, on any top word *)
Lemma norm_any F a : In F all_fields -> any_rep F a ->
  exists o, runsd 4 F "F::normalize" [VArr a] [] [VArr o] /\ produced F o.
Proof.
  intros H A. destruct (normalize_runs F a H A) as (o & R & Ro & _). exists o. split; auto.
  pose proof (B_pos F H). pose proof (layout_facts F H) as (_ & _ & _ & C & _). eapply rep_weaken; [exact Ro|unfold B; lia|unfold B in *; lia].
Qed.
Lemma packed_any F a : In F all_fields -> any_rep F a ->
  exists o ws, runsd 6 F "F::packed" [VArr a] [VArr ws] [VArr o] /\ produced F o /\ is_bytes ws /\ List.length ws = fl_nb F.
Proof.
  intros H A. destruct (normalize_runs F a H A) as (o & R1 & Ro & _).
  pose proof (all_chk _ packany_checked F H) as K. apply andb_true_iff in K as [Hh K].
  set (bs := repeat 0 (fl_nb F)). assert (Lb : List.length bs = fl_nb F) by apply repeat_length.
  destruct (kernel_sound _ _ K [VArr o; VArr bs]) as (l0 & ws & E & R & W & _).
  { repeat constructor; [apply rep_arg; auto|apply bytes_arg; auto; [apply zeros_bytes|lia]]. }
  injection E as <-. apply Forall2_repeat_bytes in W as [W1 W2].
  assert (R2 : runsd 1 F "F::pack_normalized" [VArr o; VArr bs] [] [VArr o; VArr ws]).
  { eapply body_runs; [apply has_fn; exact Hh|]. intros md cl. rewrite R. simpl. rewrite W2, skipn_all2, app_nil_r by lia. reflexivity. }
  assert (R3 : runsd 5 F "F::pack" [VArr a; VArr bs] [] [VArr o; VArr ws]).
  { apply (call_step _ _ _ _ _ _ _ (same_pack F H)). intros md fuel Hf. unfold Src_e221_3.f_pack. evm. callee R1. callee R2. reflexivity. }
  exists o, ws. split; [|split; auto].
  - apply (call_step _ _ _ _ _ _ _ (packed_body F H)). intros md fuel Hf. unfold b_packed. evm. fold bs. callee R3. reflexivity.
  - pose proof (B_pos F H). pose proof (layout_facts F H) as (_ & _ & _ & C & _). eapply rep_weaken; [exact Ro|unfold B; lia|unfold B in *; lia].
Qed.
Lemma eq_any F a b : In F all_fields -> any_rep F a -> any_rep F b ->
  exists r o o', runsd 6 F "F::normalize_eq" [VArr a; VArr b] [VInt (b2z r)] [VArr o; VArr o'] /\ produced F o /\ produced F o'.
Proof.
  intros H A Bb. destruct (norm_any F a H A) as (o & R & Po). destruct (norm_any F b H Bb) as (o' & R' & Po').
  assert (La : List.length o = fl_n F) by apply Po. assert (Lb : List.length o' = fl_n F) by apply Po'.
  exists (forallb (eq_at o o') (seq 0 (fl_n F))), o, o'. split; [|auto].
  assert (RS : runsd 5 F "F::normalize_self_eq" [VArr a; VArr o'] [VInt (b2z (forallb (eq_at o o') (seq 0 (fl_n F))))] [VArr o; VArr o']).
  { apply (call_step _ _ _ _ _ _ _ (normalize_self_eq_body F H)). intros md fuel Hf.
    unfold b_normalize_self_eq, run_func. cbn [f_params f_body f_rets List.length Nat.eqb combine].
    remember (map eq_step (seq 0 (fl_n F))) as body eqn:Eb.
    cbn [exec_list]. cbv beta iota zeta delta [exec eval_args eval evals get gets
      lookup String.eqb Ascii.eqb Bool.eqb bind upd write_back bind_rets fst snd].
    rewrite R by lia. cbv beta iota zeta delta [exec eval_args eval evals get gets
      lookup String.eqb Ascii.eqb Bool.eqb bind upd write_back bind_rets fst snd].
    change (VInt 1) with (VInt (b2z true)). subst body.
    rewrite eq_steps by (intros i Hi; rewrite in_seq in Hi; lia). reflexivity. }
  apply (call_step _ _ _ _ _ _ _ (same_normalize_eq F H)). intros md fuel Hf.
  unfold Src_e221_3.f_normalize_eq. evm. callee R'. callee RS. reflexivity.
Qed.
Lemma bit_any F a i : In F all_fields -> any_rep F a -> 0 <= i < fl_w F * Z.of_nat (fl_n F) ->
  exists r o, runsd 5 F "F::bit" [VArr a; VInt i] [VInt r] [VArr o; VInt i] /\ produced F o.
Proof.
  intros H A Hi. destruct (norm_any F a H A) as (o & R & Po). destruct (layout_facts F H) as (Ln & Lw & Lt & _).
  assert (Q : 0 <= i / fl_w F < Z.of_nat (fl_n F)) by (split; [apply Z.div_pos; lia|apply Z.div_lt_upper_bound; lia]).
  pose proof (Z.mod_pos_bound i (fl_w F) ltac:(lia)) as M.
  assert (Lo : List.length o = fl_n F) by apply Po.
  set (x := Z.land (Z.shiftr (nth (Z.to_nat (i / fl_w F)) o 0) (i mod fl_w F)) 1).
  exists (if x =? 1 then 1 else 0), o. split; [|auto].
  assert (R2 : runsd 1 F "F::bit_normalized" [VArr o; VInt i] [VInt (if x =? 1 then 1 else 0)] [VArr o; VInt i]).
  { apply (call_step _ _ _ _ _ _ _ (bit_normalized_body F H)). intros md fuel Hf.
    unfold b_bit_normalized. evm. destruct (Z.eqb_spec (fl_w F) 0); [lia|]. evm.
    replace (znth o (i / fl_w F)) with (Some (nth (Z.to_nat (i / fl_w F)) o 0)).
    2:{ rewrite <- (Z2Nat.id (i / fl_w F)) at 2 by lia. symmetry. apply znth_nth. lia. }
    rewrite shamt_ok by lia. reflexivity. }
  apply (call_step _ _ _ _ _ _ _ (same_bit F H)). intros md fuel Hf.
  unfold Src_e221_3.f_bit. evm. callee R. callee R2. reflexivity.
Qed.
Lemma hex_any F up a out : In F all_fields -> any_rep F a ->
  exists t, runsd 7 F (hexname up) [VArr a; VArr out] [] [VArr a; VArr (out ++ t)%list].
Proof.
  intros H A. destruct (packed_any F a H A) as (o & bs & R & _ & _ & Lb). exists (hex_text up (rev bs)).
  apply (call_step _ _ _ _ _ _ _ (hex_body F up H)). intros md fuel Hf.
  unfold run_func, b_hex. cbn [f_params f_body f_rets List.length Nat.eqb combine exec_list].
  destruct (hex_loop F up md (call md no_base (fl_tbl F) fuel) bs a (VArr o) out (fl_nb F) H
    Lb 0 eq_refl [] ltac:(auto)) as (r' & E).
  cbn [firstn hex_text flat_map] in E. rewrite app_nil_r in E.
  assert (E0 : exec md (call md no_base (fl_tbl F) fuel) (SLet "cpy" (EVar "self")) [("self", VArr a); ("f", VArr out)] =
    Ok [("self", VArr a); ("f", VArr out); ("cpy", VArr a)]) by reflexivity.
  rewrite E0. cbn [bind].
  assert (E1 : exec md (call md no_base (fl_tbl F) fuel) (SCall ["bytes"] "F::packed" [AMut "cpy"]) [("self", VArr a); ("f", VArr out); ("cpy", VArr a)] =
    Ok [("self", VArr a); ("f", VArr out); ("cpy", VArr o); ("bytes", VArr bs)]).
  { evm. rewrite R by lia. reflexivity. }
  rewrite E1. cbn [bind].
  rewrite (exec_for _ _ _ _ _ _ _ 0 (Z.of_nat (fl_nb F))) by reflexivity.
  rewrite Z.sub_0_r, Nat2Z.id. change (Z.of_nat 0) with 0 in E. rewrite E. reflexivity.
Qed.

(** ** The calls in the form used by histories *)
Lemma bin_safe F f n a b : In F all_fields -> In (f, (2, n)%nat) (kernels ++ combined) -> has f F = true -> produced F a -> produced F b ->
  exists rets outs, runs F f [VArr a; VArr b] rets outs /\
    Forall (fun v => exists l, v = VArr l /\ produced F l) rets /\ List.length rets = n /\
    Forall (fun v => exists l, v = VArr l /\ produced F l) outs /\ List.length outs = 2%nat.
Proof.
  intros H I Hh A Bb. destruct (combined_safe F f 2 n H I Hh [VArr a; VArr b]) as (r & o & R & X); auto.
  { constructor; [eauto|constructor; [eauto|constructor]]. }
  exists r, o. split; [|exact X]. eapply runsd_runs; [|exact R]. lia.
Qed.
Lemma un_safe F f n a : In F all_fields -> In (f, (1, n)%nat) (kernels ++ combined) -> has f F = true -> produced F a ->
  exists rets outs, runs F f [VArr a] rets outs /\
    Forall (fun v => exists l, v = VArr l /\ produced F l) rets /\ List.length rets = n /\
    Forall (fun v => exists l, v = VArr l /\ produced F l) outs /\ List.length outs = 1%nat.
Proof.
  intros H I Hh A. destruct (combined_safe F f 1 n H I Hh [VArr a]) as (r & o & R & X); auto.
  { constructor; [eauto|constructor]. }
  exists r, o. split; [|exact X]. eapply runsd_runs; [|exact R]. lia.
Qed.
