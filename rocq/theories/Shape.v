(** Shapes of values: an abstract interpreter for release builds, its soundness,
    and its verdict on the library. *)
From Coq Require Import ZArith List String Bool Lia.
From Verif Require Import Lang Fields Machine EdwardsSpec CurveSpec TraceSpec Trace ShapeSpec.
From Verif Require Src_edwards Src_curves.
Import ListNotations.
Local Open Scope string_scope.
Local Open Scope Z_scope.
Local Open Scope list_scope.

Inductive shape :=
| SNum (lo hi : Z)        (* an integer of [lo, hi] *)
| SArr (n lo hi : Z)      (* n such integers *)
| SBuf (n lo hi : Z)      (* a buffer of such integers: its length is a parameter, at least n *)
| SMin (n : Z).           (* a list of at least n integers *)
Definition len (l : list Z) : Z := Z.of_nat (List.length l).
Definition within (lo hi : Z) (l : list Z) : Prop := Forall (fun z => lo <= z <= hi) l.
Definition fits (L : Z) (s : shape) (v : val) : Prop :=
  match s, v with
  | SNum lo hi, VInt z => lo <= z <= hi
  | SArr n lo hi, VArr l => len l = n /\ within lo hi l
  | SBuf n lo hi, VArr l => len l = L /\ n <= L /\ within lo hi l
  | SMin n, VArr l => n <= len l
  | _, _ => False
  end.
(* every value of shape [s] has shape [t] *)
Definition le (s t : shape) : bool :=
  match s, t with
  | SNum a b, SNum c d => (c <=? a) && (b <=? d)
  | SArr n a b, SArr m c d => (n =? m) && (c <=? a) && (b <=? d)
  | SBuf n a b, SBuf m c d => (m <=? n) && (c <=? a) && (b <=? d)
  | SArr n _ _, SMin m | SBuf n _ _, SMin m | SMin n, SMin m => m <=? n
  | _, _ => false
  end.
Lemma within_le a b c d l : c <= a -> b <= d -> within a b l -> within c d l.
Proof. intros H K. apply Forall_impl. lia. Qed.
Ltac bools := repeat match goal with H : _ && _ = true |- _ => apply andb_true_iff in H as (? & ?) | H : (_ <=? _) = true |- _ => apply Z.leb_le in H
  | H : (_ =? _) = true |- _ => apply Z.eqb_eq in H | H : (_ <? _) = true |- _ => apply Z.ltb_lt in H end.
Lemma le_sound L s t v : le s t = true -> fits L s v -> fits L t v.
Proof.
  destruct s, t, v; cbn [le fits]; intros H K; try discriminate; try contradiction; bools; try lia.
  - destruct K. split; [lia|]. eapply within_le; [| |eassumption]; lia.
  - destruct K as (? & ? & K). split; [lia|]. split; [lia|]. eapply within_le; [| |eassumption]; lia.
Qed.

(** ** Expressions *)
Definition W := 2 ^ 63.
Definition word := SNum (- W) (W - 1).
Definition senv := list (string * shape).
Definition sat (L : Z) (A : senv) (en : env) : Prop := forall x s, lookup x A = Some s -> exists v, lookup x en = Some v /\ fits L s v.
Definition least (l : list Z) : Z := fold_right Z.min W l.
Definition greatest (l : list Z) : Z := fold_right Z.max (- W) l.
Definition num2 (s t : option shape) (f : Z -> Z -> Z -> Z -> option shape) : option shape :=
  match s, t with Some (SNum a b), Some (SNum c d) => f a b c d | _, _ => None end.
Fixpoint aeval (A : senv) (e : expr) : option shape :=
  match e with
  | EInt z => Some (SNum z z)
  | ELit l => Some (SArr (len l) (least l) (greatest l))
  | EVar x => lookup x A
  | EIdx a i =>
      match aeval A a, aeval A i with
      | Some (SArr n lo hi), Some (SNum c d) | Some (SBuf n lo hi), Some (SNum c d) => if (0 <=? c) && (d <? n) then Some (SNum lo hi) else None
      | _, _ => None
      end
  | EAdd a b | ESub a b | EMul a b => num2 (aeval A a) (aeval A b) (fun _ _ _ _ => Some word)
  | EShl a b => num2 (aeval A a) (aeval A b) (fun _ _ _ _ => Some word)
  | EShr a b => num2 (aeval A a) (aeval A b) (fun a b _ _ => if (- W <=? a) && (b <? W) then Some word else None)
  | EAnd a b => num2 (aeval A a) (aeval A b) (fun a b c d =>
      if (0 <=? a) && (0 <=? c) then Some (SNum 0 (Z.min b d)) else
      if (- W <=? a) && (b <? W) && (- W <=? c) && (d <? W) then Some word else None)
  | EOr a b => num2 (aeval A a) (aeval A b) (fun a b c d =>
      if (0 <=? a) && (b <=? 255) && (0 <=? c) && (d <=? 255) then Some (SNum 0 255) else
      if (- W <=? a) && (b <? W) && (- W <=? c) && (d <? W) then Some word else None)
  | EEq a b => num2 (aeval A a) (aeval A b) (fun _ _ _ _ => Some (SNum 0 1))
  | ENot a => match aeval A a with Some (SNum _ _) => Some (SNum 0 1) | _ => None end
  | EUSub a b => num2 (aeval A a) (aeval A b) (fun a b c d =>
      if (0 <=? a - d) && (b - c <? 2 ^ 64) then Some (SNum (a - d) (b - c)) else None)
  | EUDiv a b => num2 (aeval A a) (aeval A b) (fun a b c d =>
      if (0 <? c) && (c =? d) && (0 <=? a) then Some (SNum (a / c) (b / c)) else None)
  | EURem a b => num2 (aeval A a) (aeval A b) (fun a b c d =>
      if (0 <? c) && (c =? d) && (0 <=? a) then Some (SNum 0 (c - 1)) else None)
  | ECast U8 a => match aeval A a with Some (SNum _ _) => Some (SNum 0 255) | _ => None end
  | ECast _ a => match aeval A a with Some (SNum _ _) => Some word | _ => None end
  | ERep a n => match aeval A a with Some (SNum lo hi) => Some (SArr (Z.of_nat n) lo hi) | _ => None end
  end.
Lemma some_inj {A} (x y : A) : Some x = Some y -> y = x. Proof. congruence. Qed.
Lemma wrap_bounds b z : 0 < b -> - 2 ^ (b - 1) <= wrap b z < 2 ^ (b - 1).
Proof.
  intros H. unfold wrap. assert (E : 2 ^ b = 2 * 2 ^ (b - 1)) by (rewrite <- Z.pow_succ_r by lia; f_equal; lia).
  assert (0 < 2 ^ (b - 1)) by (apply Z.pow_pos_nonneg; lia).
  pose proof (Z.mod_pos_bound z (2 ^ b) ltac:(lia)). destruct (Z.ltb_spec (z mod 2 ^ b) (2 ^ (b - 1))); lia.
Qed.
Lemma wrap_word z : - W <= wrap 64 z <= W - 1.
Proof. pose proof (wrap_bounds 64 z ltac:(lia)). unfold W. change (64 - 1) with 63 in *. lia. Qed.
Lemma arith_word z : exists y, arith Release z = Ok y /\ - W <= y <= W - 1.
Proof.
  unfold arith, in_i64. destruct (Z.leb_spec (- 2 ^ 63) z), (Z.ltb_spec z (2 ^ 63)); cbn [andb]; eexists; split; try reflexivity; try apply wrap_word.
  unfold W. lia.
Qed.
Lemma word_bits x : - W <= x <= W - 1 <-> Z.shiftr x 63 = 0 \/ Z.shiftr x 63 = -1.
Proof. rewrite Z.shiftr_div_pow2 by lia. fold W. assert (0 < W) by reflexivity. pose proof (Z.div_mod x W). pose proof (Z.mod_pos_bound x W). nia. Qed.
Lemma land_word x y : - W <= x <= W - 1 -> - W <= y <= W - 1 -> - W <= Z.land x y <= W - 1.
Proof. rewrite !word_bits, Z.shiftr_land. intros [-> | ->] [-> | ->]; cbn; auto. Qed.
Lemma lor_word x y : - W <= x <= W - 1 -> - W <= y <= W - 1 -> - W <= Z.lor x y <= W - 1.
Proof. rewrite !word_bits, Z.shiftr_lor. intros [-> | ->] [-> | ->]; cbn; auto. Qed.
Lemma lor_byte x y : 0 <= x <= 255 -> 0 <= y <= 255 -> 0 <= Z.lor x y <= 255.
Proof.
  intros H K. assert (E : forall z, 0 <= z <= 255 <-> Z.shiftr z 8 = 0).
  { intros z. rewrite Z.shiftr_div_pow2 by lia. change (2 ^ 8) with 256. pose proof (Z.div_mod z 256). pose proof (Z.mod_pos_bound z 256). lia. }
  rewrite E in *. now rewrite Z.shiftr_lor, H, K.
Qed.
Lemma land_le x y : 0 <= x -> 0 <= y -> 0 <= Z.land x y <= x.
Proof.
  intros H K. assert (N : 0 <= Z.land x y) by (apply Z.land_nonneg; auto). split; [exact N|].
  assert (E : Z.land (Z.ldiff x y) (Z.land x y) = 0).
  { apply Z.bits_inj'. intros n _. rewrite !Z.land_spec, Z.ldiff_spec, Z.bits_0. destruct (Z.testbit x n), (Z.testbit y n); reflexivity. }
  pose proof (Z.add_nocarry_lxor _ _ E) as D. rewrite (Z.lxor_lor _ _ E), Z.lor_ldiff_and in D. assert (0 <= Z.ldiff x y) by (apply Z.ldiff_nonneg; auto). lia.
Qed.
Lemma shiftr_word x n : 0 <= n -> - W <= x <= W - 1 -> - W <= Z.shiftr x n <= W - 1.
Proof.
  intros H K. rewrite Z.shiftr_div_pow2 by lia. assert (0 < 2 ^ n) by (apply Z.pow_pos_nonneg; lia).
  pose proof (Z.div_mod x (2 ^ n)). pose proof (Z.mod_pos_bound x (2 ^ n)). assert (0 < W) by reflexivity. nia.
Qed.
Lemma znth_within lo hi l j : within lo hi l -> 0 <= j < len l -> exists z, znth l j = Some z /\ lo <= z <= hi.
Proof.
  intros H K. unfold znth, len in *. destruct (Z.ltb_spec j 0); [lia|]. destruct (nth_error l (Z.to_nat j)) as [z|] eqn:E.
  - exists z. split; auto. apply nth_error_In in E. unfold within in H. rewrite Forall_forall in H. now apply H.
  - apply nth_error_None in E. lia.
Qed.
Lemma shamt_ok n : exists m, shamt Release n = Ok m /\ 0 <= m.
Proof.
  unfold shamt. destruct (Z.leb_spec 0 n), (Z.ltb_spec n 64); cbn [andb]; eexists; split; try reflexivity; try lia; apply Z.mod_pos_bound; lia.
Qed.
Lemma num_fits L a b v : fits L (SNum a b) v -> exists z, v = VInt z /\ a <= z <= b.
Proof. destruct v; cbn; [eauto|contradiction]. Qed.
Ltac operands A e1 e2 I1 I2 H :=
  destruct (aeval A e1) as [[a b| | |]|]; try discriminate; destruct (aeval A e2) as [[c d| | |]|]; try discriminate; cbn [num2] in H;
  destruct (I1 _ eq_refl) as (v1 & -> & K1); destruct (I2 _ eq_refl) as (v2 & -> & K2);
  apply num_fits in K1 as (x & -> & K1); apply num_fits in K2 as (y & -> & K2); cbn [bind as_int].
Lemma aeval_sound L A en e : forall s, sat L A en -> aeval A e = Some s -> exists v, eval Release e en = Ok v /\ fits L s v.
Proof.
  intros s S. revert s. induction e; intros s H; cbn [aeval] in H; cbn [eval].
  - apply some_inj in H. subst s. exists (VInt z). split; [reflexivity|cbn; lia].
  - apply some_inj in H. subst s. exists (VArr l). split; [reflexivity|]. cbn [fits]. split; [reflexivity|].
    apply Forall_forall. intros z I. clear - I. unfold least, greatest. induction l as [|y t IH]; [destruct I|]. destruct I as [<-|I]; cbn [fold_right]; [lia|]. specialize (IH I). lia.
  - destruct (S x s H) as (v & V & K). exists v. unfold get. rewrite V. auto.
  - destruct (aeval A e1) as [s1|]; [|discriminate]. destruct (IHe1 _ eq_refl) as (v1 & E1 & K1). rewrite E1.
    destruct (aeval A e2) as [[c d| | |]|]; try (destruct s1; discriminate). destruct (IHe2 _ eq_refl) as (v2 & E2 & K2). rewrite E2. apply num_fits in K2 as (j & -> & K2).
    destruct s1 as [| | |]; try discriminate; destruct ((0 <=? c) && (d <? n)) eqn:B; try discriminate; bools; apply some_inj in H; subst s;
      destruct v1 as [|l]; cbn [fits] in K1; try contradiction; cbn [bind as_arr as_int].
    + destruct K1 as (K1 & K3). destruct (znth_within _ _ l j K3 ltac:(lia)) as (z & -> & Z). eexists. split; [reflexivity|exact Z].
    + destruct K1 as (K0 & K1 & K3). destruct (znth_within _ _ l j K3 ltac:(lia)) as (z & -> & Z). eexists. split; [reflexivity|exact Z].
  - operands A e1 e2 IHe1 IHe2 H. apply some_inj in H. subst s. destruct (arith_word (x + y)) as (z & -> & Z). eexists. split; [reflexivity|exact Z].
  - operands A e1 e2 IHe1 IHe2 H. apply some_inj in H. subst s. destruct (arith_word (x - y)) as (z & -> & Z). eexists. split; [reflexivity|exact Z].
  - operands A e1 e2 IHe1 IHe2 H. apply some_inj in H. subst s. destruct (arith_word (x * y)) as (z & -> & Z). eexists. split; [reflexivity|exact Z].
  - operands A e1 e2 IHe1 IHe2 H. destruct ((0 <=? a) && (0 <=? c)) eqn:B.
    + bools. apply some_inj in H. subst s. eexists. split; [reflexivity|]. cbn [fits]. pose proof (land_le x y ltac:(lia) ltac:(lia)).
      pose proof (land_le y x ltac:(lia) ltac:(lia)). rewrite (Z.land_comm y x) in *. lia.
    + clear B. destruct (_ && _) eqn:B; [|discriminate]. bools. apply some_inj in H. subst s. eexists. split; [reflexivity|]. apply land_word; lia.
  - operands A e1 e2 IHe1 IHe2 H. destruct ((0 <=? a) && (b <=? 255) && (0 <=? c) && (d <=? 255)) eqn:B.
    + bools. apply some_inj in H. subst s. eexists. split; [reflexivity|]. apply lor_byte; lia.
    + clear B. destruct (_ && _) eqn:B; [|discriminate]. bools. apply some_inj in H. subst s. eexists. split; [reflexivity|]. apply lor_word; lia.
  - operands A e1 e2 IHe1 IHe2 H. apply some_inj in H. subst s. destruct (shamt_ok y) as (m & -> & M). eexists. split; [reflexivity|apply wrap_word].
  - operands A e1 e2 IHe1 IHe2 H. destruct (_ && _) eqn:B; [|discriminate]. bools. apply some_inj in H. subst s. destruct (shamt_ok y) as (m & -> & M). eexists. split; [reflexivity|]. apply shiftr_word; lia.
  - operands A e1 e2 IHe1 IHe2 H. apply some_inj in H. subst s. eexists. split; [reflexivity|]. destruct (x =? y); cbn; lia.
  - destruct (aeval A e) as [[a b| | |]|]; try discriminate. apply some_inj in H. subst s. destruct (IHe _ eq_refl) as (v & -> & K). apply num_fits in K as (z & -> & K).
    eexists. split; [reflexivity|]. destruct (z =? 0); cbn; lia.
  - operands A e1 e2 IHe1 IHe2 H. destruct (_ && _) eqn:B; [|discriminate]. bools. apply some_inj in H. subst s. unfold uarith.
    destruct (Z.leb_spec 0 (x - y)); [|lia]. destruct (Z.ltb_spec (x - y) (2 ^ 64)); [|lia]. eexists. split; [reflexivity|]. cbn. lia.
  - operands A e1 e2 IHe1 IHe2 H. destruct (_ && _) eqn:B; [|discriminate]. bools. apply some_inj in H. subst s. assert (y = c) by lia. subst y. destruct (Z.eqb_spec c 0); [lia|].
    eexists. split; [reflexivity|]. cbn. split; apply Z.div_le_mono; lia.
  - operands A e1 e2 IHe1 IHe2 H. destruct (_ && _) eqn:B; [|discriminate]. bools. apply some_inj in H. subst s. assert (y = c) by lia. subst y. destruct (Z.eqb_spec c 0); [lia|].
    eexists. split; [reflexivity|]. cbn. pose proof (Z.mod_pos_bound x c). lia.
  - assert (exists a b, aeval A e = Some (SNum a b)) as (a & b & E) by (destruct t, (aeval A e) as [[a b| | |]|]; try discriminate; eauto).
    rewrite E in H. destruct (IHe _ E) as (v & -> & K). apply num_fits in K as (z & -> & K). eexists. split; [reflexivity|].
    destruct t; apply some_inj in H; subst s; cbn [cast fits word].
    + pose proof (Z.mod_pos_bound z 256). lia.
    + pose proof (wrap_bounds 32 z ltac:(lia)). unfold W. change (2 ^ (32 - 1)) with 2147483648 in *. lia.
    + apply wrap_word.
  - destruct (aeval A e) as [[a b| | |]|]; try discriminate. apply some_inj in H. subst s. destruct (IHe _ eq_refl) as (v & -> & K). apply num_fits in K as (z & -> & K).
    eexists. split; [reflexivity|]. cbn [fits]. unfold len. rewrite repeat_length. split; [reflexivity|]. apply Forall_forall. intros y I. apply repeat_spec in I. now subst y.
Qed.

(** ** Calls *)
Definition sig := (list shape * list shape)%type.
Definition fin (p : shape) : shape := match p with SMin _ => SMin 0 | _ => p end.
Definition honours (c : string -> list val -> res (list val * list val)) (f : string) (g : sig) : Prop := forall L vs, Forall2 (fits L) (fst g) vs ->
  exists rets outs, c f vs = Ok (rets, outs) /\ Forall2 (fits L) (snd g) rets /\ Forall2 (fits L) (map fin (fst g)) outs.
Definition buf (p : shape) : bool := match p with SBuf _ _ _ => true | _ => false end.
Definition bufs (ps : list shape) : nat := List.length (filter buf ps).
Definition passes1 (p a : shape) : bool :=
  match p, a with SBuf m c d, SArr n lo hi | SBuf m c d, SBuf n lo hi => (m <=? n) && (c <=? lo) && (hi <=? d) | _, _ => le a p end.
Fixpoint passes (ps ss : list shape) : bool := match ps, ss with [], [] => true | p :: ps, a :: ss => passes1 p a && passes ps ss | _, _ => false end.
Definition after1 (p a : shape) : shape :=
  match p, a with SBuf _ c d, SArr n _ _ => SArr n c d | SBuf _ c d, SBuf n _ _ => SBuf n c d | _, _ => fin p end.
Fixpoint afters (ps ss : list shape) : list shape := match ps, ss with p :: ps, a :: ss => after1 p a :: afters ps ss | _, _ => [] end.
Lemma fits_nobuf L L' p v : buf p = false -> fits L p v -> fits L' p v.
Proof. destruct p; cbn; auto; discriminate. Qed.
Lemma fin_nobuf p : buf (fin p) = buf p. Proof. destruct p; reflexivity. Qed.
Lemma passes_nobuf L p a v : buf p = false -> passes1 p a = true -> fits L a v -> fits L p v.
Proof. intros B H K. apply (le_sound L a p v); auto. destruct p; cbn in *; try discriminate; auto. Qed.
Lemma after_nobuf p a : buf p = false -> after1 p a = fin p.
Proof. destruct p; cbn; auto; discriminate. Qed.
Lemma Forall2_nobuf L L' ps vs : bufs ps = 0%nat -> Forall2 (fits L) ps vs -> Forall2 (fits L') ps vs.
Proof.
  intros B H. unfold bufs in B. induction H as [|p v ps vs H Hs IH]; constructor; cbn [filter] in B; destruct (buf p) eqn:E; try discriminate; auto.
  now apply (fits_nobuf L).
Qed.
Lemma passes_all L ps ss vs : bufs ps = 0%nat -> passes ps ss = true -> Forall2 (fits L) ss vs ->
  Forall2 (fits L) ps vs /\ afters ps ss = map fin ps.
Proof.
  revert ss vs. induction ps as [|p ps IH]; intros [|a ss] vs B H K; try discriminate; inversion K; subst; [split; [constructor|reflexivity]|].
  cbn [passes] in H. apply andb_true_iff in H as (H & H'). unfold bufs in B. cbn [filter] in B. destruct (buf p) eqn:E; [discriminate|].
  destruct (IH ss l' B H' ltac:(assumption)) as (I & J). split; [constructor; [eapply passes_nobuf; eauto|exact I]|].
  cbn [afters map]. now rewrite J, after_nobuf.
Qed.
Lemma bufs_fin ps : bufs (map fin ps) = bufs ps.
Proof. unfold bufs. induction ps as [|p ps IH]; [reflexivity|]. cbn [map filter]. rewrite fin_nobuf. destruct (buf p); cbn; congruence. Qed.
Lemma passes_sound L ps ss vs : (bufs ps <= 1)%nat -> passes ps ss = true -> Forall2 (fits L) ss vs ->
  exists L', Forall2 (fits L') ps vs /\ (forall outs, Forall2 (fits L') (map fin ps) outs -> Forall2 (fits L) (afters ps ss) outs).
Proof.
  revert ss vs. induction ps as [|p ps IH]; intros [|a ss] vs B H K; try discriminate; inversion K as [|? v ? vs' K1 K2]; subst.
  - exists L. split; [constructor|auto].
  - cbn [passes] in H. apply andb_true_iff in H as (H & H'). unfold bufs in B. cbn [filter] in B. destruct (buf p) eqn:E.
    + assert (B0 : bufs ps = 0%nat) by (unfold bufs; cbn in B; lia). destruct (passes_all L ps ss vs' B0 H' K2) as (I & J).
      destruct p as [| |m c d|]; try discriminate. destruct a as [|n lo hi|n lo hi|], v as [z|l]; cbn [passes1 le fits] in *; try discriminate; try contradiction; bools.
      * destruct K1 as (K1 & K3). exists (len l). split.
        { constructor; [|now apply (Forall2_nobuf L)]. cbn [fits]. repeat split; try lia. eapply within_le; [| |eassumption]; lia. }
        { intros outs O. cbn [map fin] in O. inversion O as [|? o ? outs' O1 O2]; subst. cbn [afters after1]. constructor.
          - destruct o; cbn [fits] in O1 |- *; [contradiction|]. destruct O1 as (? & ? & ?). split; [lia|assumption].
          - rewrite J. apply (Forall2_nobuf (len l)); [now rewrite bufs_fin|exact O2]. }
      * destruct K1 as (K1 & K0 & K3). exists (len l). split.
        { constructor; [|now apply (Forall2_nobuf L)]. cbn [fits]. repeat split; try lia. eapply within_le; [| |eassumption]; lia. }
        { intros outs O. cbn [map fin] in O. inversion O as [|? o ? outs' O1 O2]; subst. cbn [afters after1]. constructor.
          - destruct o; cbn [fits] in O1 |- *; [contradiction|]. destruct O1 as (? & ? & ?). repeat split; try lia; assumption.
          - rewrite J. apply (Forall2_nobuf (len l)); [now rewrite bufs_fin|exact O2]. }
    + destruct (IH ss vs' ltac:(unfold bufs; lia) H' K2) as (L' & I & J). exists L'. split.
      * constructor; [|exact I]. apply (fits_nobuf L); auto. eapply passes_nobuf; eauto.
      * intros outs O. cbn [map] in O. inversion O as [|? o ? outs' O1 O2]; subst. cbn [afters]. constructor; [|now apply J].
        rewrite after_nobuf by exact E. apply (fits_nobuf L'); [now rewrite fin_nobuf|exact O1].
Qed.

(** ** Statements *)
Definition join (s t : shape) : option shape :=
  match s, t with
  | SNum a b, SNum c d => Some (SNum (Z.min a c) (Z.max b d))
  | SArr n a b, SArr m c d => if n =? m then Some (SArr n (Z.min a c) (Z.max b d)) else None
  | SBuf n a b, SBuf m c d => Some (SBuf (Z.min n m) (Z.min a c) (Z.max b d))
  | SMin n, SMin m => Some (SMin (Z.min n m))
  | _, _ => None
  end.
Definition join_env (A A' : senv) : senv :=
  flat_map (fun xs => match lookup (fst xs) A, lookup (fst xs) A' with
    | Some s, Some s' => match join s s' with Some j => [(fst xs, j)] | None => [] end | _, _ => [] end) A.
Definition stable (B B' : senv) : bool :=
  forallb (fun xs => match lookup (fst xs) B, lookup (fst xs) B' with Some s, Some s' => le s' s | _, _ => false end) B.
Definition obind {X Y} (m : option X) (f : X -> option Y) : option Y := match m with Some x => f x | None => None end.
Section Shapes.
  Variable sg : string -> option sig.
  Fixpoint aargs (A : senv) (l : list arg) : option (list shape) :=
    match l with
    | [] => Some []
    | a :: t => obind (match a with AVal e => aeval A e | AMut x => lookup x A end) (fun s => obind (aargs A t) (fun ss => Some (s :: ss)))
    end.
  Fixpoint aback (l : list arg) (ss : list shape) (A : senv) : option senv :=
    match l, ss with
    | [], [] => Some A
    | AVal _ :: t, _ :: ss => aback t ss A
    | AMut x :: t, s :: ss => aback t ss ((x, s) :: A)
    | _, _ => None
    end.
  Fixpoint arets (ds : list string) (ss : list shape) (A : senv) : option senv :=
    match ds, ss with [], _ => Some A | d :: t, s :: ss => arets t ss ((d, s) :: A) | _ :: _, [] => None end.
  Definition acall (A : senv) (ds : list string) (f : string) (args : list arg) : option senv :=
    obind (sg f) (fun g => obind (aargs A args) (fun ss =>
    if (Nat.leb (bufs (fst g)) 1) && (Nat.eqb (bufs (snd g)) 0) && passes (fst g) ss
    then obind (aback args (afters (fst g) ss) A) (arets ds (snd g)) else None)).
  Definition awhile (go : senv -> option senv) (x : string) (i : shape) (A : senv) : option senv :=
    obind (go ((x, i) :: A)) (fun A' => let B := join_env A A' in
    obind (go ((x, i) :: B)) (fun B' => if stable B B' then Some B else None)).
  Fixpoint aiter (go : senv -> option senv) (x : string) (n : nat) (i : Z) (A : senv) : option senv :=
    match n with O => Some A | S k => obind (go ((x, SNum i i) :: A)) (aiter go x k (i + 1)) end.
  Fixpoint aexec (A : senv) (s : stmt) {struct s} : option senv :=
    let alist := fix go (l : list stmt) (A : senv) : option senv := match l with [] => Some A | s :: t => obind (aexec A s) (go t) end in
    match s with
    | SLet x e => obind (aeval A e) (fun s => Some ((x, s) :: A))
    | SSet a i e =>
        match aeval A e, aeval A i, lookup a A with
        | Some (SNum lo hi), Some (SNum c d), Some (SArr n l h) => if (0 <=? c) && (d <? n) then Some ((a, SArr n (Z.min l lo) (Z.max h hi)) :: A) else None
        | Some (SNum lo hi), Some (SNum c d), Some (SBuf n l h) => if (0 <=? c) && (d <? n) then Some ((a, SBuf n (Z.min l lo) (Z.max h hi)) :: A) else None
        | _, _, _ => None
        end
    | SCall ds f args => acall A ds f args
    | SFor x lo hi body =>
        match aeval A lo, aeval A hi with
        | Some (SNum a b), Some (SNum c d) =>
            if (a =? b) && (c =? d) && (d - a <=? 16) then aiter (alist body) x (Z.to_nat (c - a)) a A
            else awhile (alist body) x (SNum a (d - 1)) A
        | _, _ => None
        end
    | SGenRange x rng lo hi =>
        match aeval A lo, aeval A hi, lookup rng A with
        | Some (SNum a b), Some (SNum c d), Some (SMin n) => if (b <? c) && (1 <=? n) then Some ((x, SNum a (d - 1)) :: (rng, SMin (n - 1)) :: A) else None
        | _, _, _ => None
        end
    | SPushStr f s => match lookup f A with Some (SMin n) => Some ((f, SMin n) :: A) | _ => None end
    | SPushHex f _ _ _ e => match aeval A e, lookup f A with Some (SNum _ _), Some (SMin n) => Some ((f, SMin n) :: A) | _, _ => None end
    end.
  Fixpoint alist (l : list stmt) (A : senv) : option senv := match l with [] => Some A | s :: t => obind (aexec A s) (alist t) end.
  Lemma alist_eq l : forall A, (fix go (l : list stmt) (A : senv) : option senv := match l with [] => Some A | s :: t => obind (aexec A s) (go t) end) l A = alist l A.
  Proof. induction l as [|s t IH]; intros A; [reflexivity|]. cbn [alist]. destruct (aexec A s); cbn [obind]; auto. Qed.

  Variable c : string -> list val -> res (list val * list val).
  Hypothesis HC : forall f g, sg f = Some g -> honours c f g.
  Variable L : Z.
  Lemma sat_cons A en x s v : sat L A en -> fits L s v -> sat L ((x, s) :: A) (upd x v en).
  Proof.
    intros H K y t. cbn [lookup]. rewrite lookup_upd. destruct (String.eqb y x); [|apply H]. intros E. apply some_inj in E. subst t. eauto.
  Qed.
  Lemma aargs_sound A en l : sat L A en -> forall ss, aargs A l = Some ss -> exists vs, eval_args Release l en = Ok vs /\ Forall2 (fits L) ss vs.
  Proof.
    intros S. induction l as [|a t IH]; intros ss H; cbn [aargs eval_args] in *; [apply some_inj in H; subst ss; exists []; split; [reflexivity|constructor]|].
    destruct (match a with AVal e => aeval A e | AMut x => lookup x A end) as [s|] eqn:E; [|discriminate]. cbn [obind] in H.
    destruct (aargs A t) as [ts|]; [|discriminate]. cbn [obind] in H. apply some_inj in H. subst ss. destruct (IH ts eq_refl) as (vs & Ev & K).
    assert (exists v, match a with AVal e => eval Release e en | AMut x => get x en end = Ok v /\ fits L s v) as (v & Ea & Ka).
    { destruct a; [now apply (aeval_sound L A)|]. destruct (S x s E) as (v & V & K'). exists v. unfold get. now rewrite V. }
    exists (v :: vs). rewrite Ea. cbn [bind]. rewrite Ev. split; [reflexivity|now constructor].
  Qed.
  Lemma aback_sound l : forall ss vs A en B, sat L A en -> Forall2 (fits L) ss vs -> aback l ss A = Some B -> exists en', write_back l vs en = Ok en' /\ sat L B en'.
  Proof.
    induction l as [|a t IH]; intros ss vs A en B S K H; destruct K as [|s v ss vs K1 K2]; cbn [aback write_back] in *; try discriminate.
    - apply some_inj in H. subst B. eauto.
    - destruct a; discriminate.
    - destruct a; [eapply IH; eassumption|]. eapply IH; [|eassumption|eassumption]. now apply sat_cons.
  Qed.
  Lemma arets_sound ds : forall ss vs A en B, sat L A en -> Forall2 (fits L) ss vs -> arets ds ss A = Some B -> exists en', bind_rets ds vs en = Ok en' /\ sat L B en'.
  Proof.
    induction ds as [|d t IH]; intros ss vs A en B S K H; cbn [arets bind_rets] in *; [apply some_inj in H; subst B; eauto|].
    destruct K as [|s v ss vs K1 K2]; [discriminate|]. eapply IH; [|eassumption|eassumption]. now apply sat_cons.
  Qed.
  Definition runs_in (go : senv -> option senv) (run : env -> res env) : Prop := forall A B en, sat L A en -> go A = Some B -> exists en', run en = Ok en' /\ sat L B en'.
  Lemma lookup_join A A' x : forall B, (forall y s, In (y, s) B -> lookup y A <> None) -> forall j,
    lookup x (flat_map (fun xs : string * shape => match lookup (fst xs) A, lookup (fst xs) A' with
      | Some s, Some s' => match join s s' with Some j => [(fst xs, j)] | None => [] end | _, _ => [] end) B) = Some j ->
    exists s s', lookup x A = Some s /\ lookup x A' = Some s' /\ join s s' = Some j.
  Proof.
    induction B as [|(y, t) B IH]; intros H j E; cbn [flat_map fst] in E; [discriminate|].
    assert (IH' : forall j, _ -> _) by (exact (IH (fun y s I => H y s (or_intror I)))).
    destruct (lookup y A) as [s|] eqn:Ey; [|now apply IH']. destruct (lookup y A') as [s'|] eqn:Ey'; [|now apply IH'].
    destruct (join s s') as [k|] eqn:Ej; [|now apply IH']. cbn [app lookup] in E. destruct (String.eqb_spec x y) as [->|N]; [|now apply IH'].
    apply some_inj in E. subst j. eauto.
  Qed.
  Lemma in_lookup {X} x (v : X) B : In (x, v) B -> lookup x B <> None.
  Proof.
    induction B as [|(y, w) B IH]; intros I; [destruct I|]. cbn [lookup]. destruct (String.eqb_spec x y); [discriminate|].
    destruct I as [I|I]; [inversion I; congruence|now apply IH].
  Qed.
  Lemma lookup_in {X} x (v : X) B : lookup x B = Some v -> In (x, v) B.
  Proof.
    induction B as [|(y, w) B IH]; cbn [lookup]; intros H; [discriminate|]. destruct (String.eqb_spec x y) as [->|N]; [left; congruence|right; auto].
  Qed.
  Lemma join_le s t j : join s t = Some j -> le s j = true.
  Proof.
    destruct s, t; cbn [join]; intros H; try discriminate; try (destruct (_ =? _); [|discriminate]); apply some_inj in H; subst j; cbn [le];
      rewrite ?Z.eqb_refl, ?andb_true_iff, ?Z.leb_le; repeat split; lia.
  Qed.
  Lemma join_sat A A' en : sat L A en -> sat L (join_env A A') en.
  Proof.
    intros H x j E. apply lookup_join in E; [|intros y s I; now apply (in_lookup y s)]. destruct E as (s & s' & E & _ & J).
    destruct (H x s E) as (v & V & K). exists v. split; [exact V|]. eapply le_sound; [eapply join_le; eassumption|exact K].
  Qed.
  Lemma stable_sat B B' en : stable B B' = true -> sat L B' en -> sat L B en.
  Proof.
    intros H K x s E. unfold stable in H. rewrite forallb_forall in H. specialize (H (x, s) (lookup_in _ _ _ E)). cbn [fst] in H. rewrite E in H.
    destruct (lookup x B') as [s'|] eqn:E'; [|discriminate]. destruct (K x s' E') as (v & V & K'). exists v. split; [exact V|]. now apply (le_sound L s').
  Qed.
  Lemma awhile_sound go run x a d n : runs_in go run -> forall A B, awhile go x (SNum a d) A = Some B ->
    forall i en, a <= i -> (i + Z.of_nat n <= d + 1 \/ n = O) -> sat L A en -> exists en', iter run x n i en = Ok en' /\ sat L B en'.
  Proof.
    intros R A B H. unfold awhile in H. destruct (go ((x, SNum a d) :: A)) as [A'|]; [|discriminate]. cbn [obind] in H. set (B0 := join_env A A') in *.
    destruct (go ((x, SNum a d) :: B0)) as [B'|] eqn:E; [|discriminate]. cbn [obind] in H. destruct (stable B0 B') eqn:T; [|discriminate]. apply some_inj in H. subst B.
    intros i en Hi Hn S. assert (S0 : sat L B0 en) by now apply join_sat. clear S. revert i en Hi Hn S0.
    induction n as [|n IH]; intros i en Hi Hn S0; cbn [iter]; [eauto|]. assert (S1 : sat L ((x, SNum a d) :: B0) (upd x (VInt i) en)) by (apply sat_cons; [exact S0|cbn [fits]; lia]).
    destruct (R _ _ _ S1 E) as (en' & -> & S').
    cbn [bind]. apply IH; [lia|lia|]. now apply (stable_sat B0 B').
  Qed.
  Lemma aiter_sound go run x n : runs_in go run -> forall A B i en, aiter go x n i A = Some B -> sat L A en -> exists en', iter run x n i en = Ok en' /\ sat L B en'.
  Proof.
    intros R. induction n as [|n IH]; intros A B i en H S; cbn [aiter iter] in *; [apply some_inj in H; subst B; eauto|].
    destruct (go ((x, SNum i i) :: A)) as [A'|] eqn:E; [|discriminate]. cbn [obind] in H.
    assert (S1 : sat L ((x, SNum i i) :: A) (upd x (VInt i) en)) by (apply sat_cons; [exact S|cbn [fits]; lia]).
    destruct (R _ _ _ S1 E) as (en' & -> & S'). cbn [bind]. now apply (IH A').
  Qed.
  Lemma upd_within l : forall n v lo hi l' h', within lo hi l -> l' <= v <= h' -> (n < List.length l)%nat ->
    exists k, upd_nth l n v = Some k /\ List.length k = List.length l /\ within (Z.min lo l') (Z.max hi h') k.
  Proof.
    induction l as [|x t IH]; intros n v lo hi l' h' H K N; cbn [List.length] in N; [lia|]. inversion H; subst. destruct n as [|n]; cbn [upd_nth].
    - eexists. split; [reflexivity|]. split; [reflexivity|]. constructor; [lia|]. eapply within_le; [| |eassumption]; lia.
    - destruct (IH n v lo hi l' h' ltac:(assumption) K ltac:(lia)) as (k & -> & Lk & Wk). eexists. split; [reflexivity|]. split; [cbn; lia|]. constructor; [lia|exact Wk].
  Qed.
  Lemma zset_within l j v lo hi l' h' : within lo hi l -> l' <= v <= h' -> 0 <= j < len l ->
    exists k, zset l j v = Some k /\ len k = len l /\ within (Z.min lo l') (Z.max hi h') k.
  Proof.
    intros H K N. unfold zset, len in *. destruct (Z.ltb_spec j 0); [lia|]. destruct (upd_within l (Z.to_nat j) v lo hi l' h' H K ltac:(lia)) as (k & E & Lk & Wk).
    exists k. rewrite Lk. auto.
  Qed.
  Lemma aexec_sound s : runs_in (fun A => aexec A s) (exec Release c s).
  Proof.
    induction s using stmt_rect'; intros A B en S E; [| | |rewrite exec_for|..]; cbn [aexec exec] in *.
    - destruct (aeval A e) as [s|] eqn:Ee; [|discriminate]. cbn [obind] in E. apply some_inj in E. subst B. destruct (aeval_sound L A en e s S Ee) as (v & -> & K).
      eexists. split; [reflexivity|]. now apply sat_cons.
    - destruct (aeval A e) as [[lo hi| | |]|] eqn:Ee; try discriminate. destruct (aeval A i) as [[a0 d| | |]|] eqn:Ei; try discriminate.
      destruct (lookup a A) as [t|] eqn:Ea; [|discriminate]. destruct (aeval_sound L A en e _ S Ee) as (v & -> & K). apply num_fits in K as (z & -> & K).
      destruct (aeval_sound L A en i _ S Ei) as (v & -> & Kj). apply num_fits in Kj as (j & -> & Kj). destruct (S a t Ea) as (v & V & Kt). unfold get. rewrite V. cbn [bind as_int].
      destruct t as [|n l h|n l h|]; try discriminate; destruct ((0 <=? a0) && (d <? n)) eqn:Bd; try discriminate; bools; apply some_inj in E; subst B;
        destruct v as [|k]; cbn [fits] in Kt; try contradiction; cbn [bind as_arr].
      + destruct Kt as (Lk & Wk). destruct (zset_within k j z l h lo hi Wk K ltac:(lia)) as (k' & -> & Lk' & Wk'). eexists. split; [reflexivity|]. apply sat_cons; [exact S|].
        cbn [fits]. split; [lia|exact Wk'].
      + destruct Kt as (Lk & Ln & Wk). destruct (zset_within k j z l h lo hi Wk K ltac:(lia)) as (k' & -> & Lk' & Wk'). eexists. split; [reflexivity|]. apply sat_cons; [exact S|].
        cbn [fits]. repeat split; try lia. exact Wk'.
    - unfold acall in E. destruct (sg f) as [g|] eqn:Eg; [|discriminate]. cbn [obind] in E. destruct (aargs A args) as [ss|] eqn:Ea; [|discriminate]. cbn [obind] in E.
      destruct (_ && _) eqn:Bd; [|discriminate]. apply andb_true_iff in Bd as (Bd & Ps). apply andb_true_iff in Bd as (B1 & B0). apply Nat.leb_le in B1. apply Nat.eqb_eq in B0.
      destruct (aargs_sound A en args S ss Ea) as (vs & -> & K). cbn [bind]. destruct (passes_sound L _ ss vs B1 Ps K) as (L' & Kp & Ko).
      destruct (HC f g Eg L' vs Kp) as (rets & outs & -> & Kr & Kt). cbn [bind fst snd]. specialize (Ko outs Kt).
      destruct (aback args (afters (fst g) ss) A) as [A'|] eqn:Eb; [|discriminate]. cbn [obind] in E.
      destruct (aback_sound args _ outs A en A' S Ko Eb) as (en' & -> & S'). cbn [bind]. eapply arets_sound; [exact S'| |exact E]. now apply (Forall2_nobuf L').
    - destruct (aeval A lo) as [[a b| | |]|] eqn:El; try discriminate. destruct (aeval A hi) as [[a' d| | |]|] eqn:Eh; try discriminate.
      destruct (aeval_sound L A en lo _ S El) as (v & -> & K). apply num_fits in K as (i & -> & K).
      destruct (aeval_sound L A en hi _ S Eh) as (v & -> & Kj). apply num_fits in Kj as (j & -> & Kj). cbn [bind as_int].
      assert (R : runs_in (alist body) (exec_list Release c body)).
      { clear - H. induction H as [|s t Hs Ht IH]; intros A B en S E; cbn [alist exec_list] in *; [apply some_inj in E; subst B; eauto|].
        destruct (aexec A s) as [A'|] eqn:Es; [|discriminate]. cbn [obind] in E. destruct (Hs A A' en S Es) as (en' & -> & S'). cbn [bind]. now apply (IH A'). }
      assert (R' : runs_in ((fix go (l : list stmt) (A : senv) : option senv := match l with [] => Some A | s :: t => obind (aexec A s) (go t) end) body) (exec_list Release c body)).
      { intros A0 B0 e0 S0. rewrite alist_eq. now apply R. }
      destruct ((a =? b) && (a' =? d) && (d - a <=? 16)) eqn:Bd.
      + bools. replace (j - i) with (a' - a) by lia. replace i with a by lia. eapply aiter_sound; eauto.
      + apply (awhile_sound _ _ _ _ _ (Z.to_nat (j - i)) R' A B E); auto; lia.
    - destruct (aeval A lo) as [[a b| | |]|] eqn:El; try discriminate. destruct (aeval A hi) as [[a' d| | |]|] eqn:Eh; try discriminate.
      destruct (lookup r A) as [[| | |n]|] eqn:Er; try discriminate. destruct ((b <? a') && (1 <=? n)) eqn:Bd; [|discriminate]. bools. apply some_inj in E. subst B.
      destruct (aeval_sound L A en lo _ S El) as (v & -> & K). apply num_fits in K as (i & -> & K).
      destruct (aeval_sound L A en hi _ S Eh) as (v & -> & Kj). apply num_fits in Kj as (j & -> & Kj). destruct (S r _ Er) as (v & V & Kr). unfold get. rewrite V.
      destruct v as [|ds]; cbn [fits] in Kr; [contradiction|]. cbn [bind as_int as_arr]. destruct (Z.leb_spec j i); [lia|].
      destruct ds as [|d0 ds]; unfold len in Kr; cbn [List.length] in Kr; [lia|]. eexists. split; [reflexivity|]. apply sat_cons; [apply sat_cons; [exact S|]|].
      + cbn [fits]. unfold len. lia.
      + cbn [fits]. pose proof (Z.mod_pos_bound d0 (j - i)). lia.
    - destruct (lookup f A) as [[| | |n]|] eqn:Er; try discriminate. apply some_inj in E. subst B. destruct (S f _ Er) as (v & V & Kr). unfold get. rewrite V.
      destruct v as [|ds]; cbn [fits] in Kr; [contradiction|]. cbn [bind as_arr]. eexists. split; [reflexivity|]. apply sat_cons; [exact S|]. cbn [fits]. unfold len in *. rewrite app_length. lia.
    - destruct (aeval A e) as [[lo hi| | |]|] eqn:Ee; try discriminate. destruct (lookup f A) as [[| | |n]|] eqn:Er; try discriminate. apply some_inj in E. subst B.
      destruct (aeval_sound L A en e _ S Ee) as (v & -> & K). apply num_fits in K as (z & -> & K). destruct (S f _ Er) as (v & V & Kr). unfold get. rewrite V.
      destruct v as [|ds]; cbn [fits] in Kr; [contradiction|]. cbn [bind as_int as_arr]. eexists. split; [reflexivity|]. apply sat_cons; [exact S|]. cbn [fits]. unfold len in *. rewrite app_length. lia.
  Qed.
  Lemma alist_sound l : runs_in (alist l) (exec_list Release c l).
  Proof.
    induction l as [|s t IH]; intros A B en S E; cbn [alist exec_list] in *; [apply some_inj in E; subst B; eauto|].
    destruct (aexec A s) as [A'|] eqn:Es; [|discriminate]. cbn [obind] in E. destruct (aexec_sound s A A' en S Es) as (en' & -> & S'). cbn [bind]. now apply (IH A').
  Qed.
End Shapes.

(** ** Functions *)
Fixpoint leads (ss : list (option shape)) (ts : list shape) : bool :=
  match ss, ts with [], [] => true | Some s :: ss, t :: ts => le s t && leads ss ts | _, _ => false end.
Definition func_ok (sg : string -> option sig) (fn : func) (g : sig) : bool :=
  Nat.eqb (List.length (f_params fn)) (List.length (fst g)) &&
  match alist sg (f_body fn) (combine (f_params fn) (fst g)) with
  | Some A => leads (map (aeval A) (f_rets fn)) (snd g) && leads (map (fun x => lookup x A) (f_params fn)) (map fin (fst g))
  | None => false
  end.
Lemma sat_combine L xs : forall ps vs, Forall2 (fits L) ps vs -> List.length xs = List.length ps -> sat L (combine xs ps) (combine xs vs).
Proof.
  induction xs as [|x xs IH]; intros ps vs H E y s K; [discriminate|]. destruct H as [|p v ps vs H Hs]; [discriminate|]. cbn [combine lookup] in *.
  destruct (String.eqb y x); [apply some_inj in K; subst s; eauto|]. apply (IH ps vs Hs); auto.
Qed.
Lemma leads_evals L A en es : sat L A en -> forall ts, leads (map (aeval A) es) ts = true -> exists vs, evals Release es en = Ok vs /\ Forall2 (fits L) ts vs.
Proof.
  intros S. induction es as [|e es IH]; intros [|t ts] H; cbn [map leads] in H; try discriminate; [exists []; split; [reflexivity|constructor]| |].
  - destruct (aeval A e); discriminate.
  - destruct (aeval A e) as [s|] eqn:E; [|discriminate]. apply andb_true_iff in H as (H & H'). destruct (IH ts H') as (vs & Ev & K).
    destruct (aeval_sound L A en e s S E) as (v & Ee & Kv). exists (v :: vs). cbn [evals]. rewrite Ee. cbn [bind]. rewrite Ev. split; [reflexivity|]. constructor; auto. now apply (le_sound L s).
Qed.
Lemma leads_gets L A en xs : sat L A en -> forall ts, leads (map (fun x => lookup x A) xs) ts = true -> exists vs, gets xs en = Ok vs /\ Forall2 (fits L) ts vs.
Proof.
  intros S. induction xs as [|x xs IH]; intros [|t ts] H; cbn [map leads] in H; try discriminate; [exists []; split; [reflexivity|constructor]| |].
  - destruct (lookup x A); discriminate.
  - destruct (lookup x A) as [s|] eqn:E; [|discriminate]. apply andb_true_iff in H as (H & H'). destruct (IH ts H') as (vs & Ev & K).
    destruct (S x s E) as (v & V & Kv). exists (v :: vs). cbn [gets]. unfold get. rewrite V. cbn [bind]. rewrite Ev. split; [reflexivity|]. constructor; auto. now apply (le_sound L s).
Qed.
Lemma func_sound sg c fn g f : (forall f g, sg f = Some g -> honours c f g) -> func_ok sg fn g = true -> honours (fun _ vs => run_func Release c fn vs) f g.
Proof.
  intros HC H L vs K. unfold func_ok in H. apply andb_true_iff in H as (E & H). apply Nat.eqb_eq in E.
  destruct (alist sg (f_body fn) (combine (f_params fn) (fst g))) as [A|] eqn:Ea; [|discriminate]. apply andb_true_iff in H as (Hr & Ho).
  assert (E2 : List.length (fst g) = List.length vs) by (clear - K; induction K; cbn; congruence). unfold run_func. rewrite E, E2, Nat.eqb_refl.
  destruct (alist_sound sg c HC L (f_body fn) _ _ _ (sat_combine L _ _ _ K E) Ea) as (en & -> & S). cbn [bind].
  destruct (leads_evals L A en _ S _ Hr) as (rs & -> & Kr). cbn [bind]. destruct (leads_gets L A en _ S _ Ho) as (os & -> & Ko). cbn [bind]. eauto.
Qed.

(** ** Call depth *)
Definition levels : list (list string) := [
  ["F::Debug::fmt"; "F::add_assign(&F)"; "F::sub_assign(&F)"; "F::mul_assign(&F)"; "F::rand"; "F::unpack";
    "F::pack_normalized"; "F::nbytes"; "Mask::fill"; "Mask::filled"; "F::fill"; "F::filled"; "F::nbits";
    "F::bit_normalized"; "F::normalized_bitand"; "F::normalized_bitor"; "F::zero"; "F::one"; "F::m_one";
    "F::modulus"; "F::square"; "F::small_add_assign"; "F::small_sub_assign"; "F::small_mul_assign";
    "C::d_val"];
  ["F::quartic_legendre"; "F::neg"; "F::add_assign(F)"; "F::add_assign(i32)"; "F::add_assign(i16)";
    "F::add_assign(i8)"; "(&F)::add(&F)"; "F::sub_assign(F)"; "F::sub_assign(i32)"; "F::sub_assign(i16)";
    "F::sub_assign(i8)"; "(&F)::sub(&F)"; "F::mul_assign(i32)"; "F::mul_assign(i16)"; "F::mul_assign(i8)";
    "F::mul_assign(F)"; "(&F)::mul(&F)"; "F::unpacked"; "F::squared"; "F::invert"; "F::small_add";
    "F::small_sub"; "F::small_mul"; "P::normalized_bitand"; "P::normalized_bitor"; "P::zero"; "P::init"];
  ["F::add(F)"; "i32::add(&F)"; "i16::add(&F)"; "i8::add(&F)"; "(&F)::add(i32)"; "(&F)::add(i16)";
    "(&F)::add(i8)"; "F::sub(F)"; "(&F)::sub(i32)"; "(&F)::sub(i16)"; "(&F)::sub(i8)"; "i32::mul(&F)";
    "i16::mul(&F)"; "i8::mul(&F)"; "(&F)::mul(i32)"; "(&F)::mul(i16)"; "(&F)::mul(i8)"; "F::mul(F)";
    "F::inverted"; "F::legendre"; "F::sqrt"];
  ["F::add(i32)"; "F::add(i16)"; "F::add(i8)"; "F::div_assign(&F)"; "F::sub(i32)"; "F::sub(i16)";
    "F::sub(i8)"; "F::mul(i32)"; "F::mul(i16)"; "F::mul(i8)"; "F::normalize"; "P::add_assign(&P)";
    "P::double"; "P::triple"];
  ["F::div_assign(F)"; "(&F)::div(&F)"; "F::pack"; "F::normalize_self_eq"; "F::bit";
    "F::normalize_self_bitand"; "F::normalize_self_bitor"; "P::add_assign(P)"; "(&P)::add(&P)"; "P::doubled";
    "P::tripled"];
  ["F::packed"; "F::div(F)"; "F::normalize_eq"; "F::normalize_bitand"; "F::normalize_bitor"; "P::add(P)";
    "P::scalar_mult_normalized"];
  ["F::LowerHex::fmt"; "F::UpperHex::fmt"; "P::scalar_mult"]].
Fixpoint level_in (ls : list (list string)) (f : string) : nat :=
  match ls with [] => O | l :: t => if existsb (String.eqb f) l then O else S (level_in t f) end.
Definition level := level_in levels.
Definition below (sg : string -> option sig) (k : nat) (f : string) : option sig := if Nat.ltb (level f) k then sg f else None.
Definition entry_ok (sg : string -> option sig) (fs : string * func) : bool :=
  match sg (fst fs) with Some g => func_ok (below sg (level (fst fs))) (snd fs) g | None => false end.
Lemma table_sound sg tbl : (forall f g, sg f = Some g -> lookup f tbl <> None) ->
  (forall fs, In fs tbl -> exists sg', (forall f g, sg' f = Some g -> sg f = Some g) /\ entry_ok sg' fs = true) ->
  forall k f g, sg f = Some g -> (level f < k)%nat -> honours (call Release no_base tbl k) f g.
Proof.
  intros ALL OK. induction k as [|k IH]; intros f g E N; [lia|]. destruct (lookup f tbl) as [fn|] eqn:Ef; [|now apply ALL in E].
  destruct (OK (f, fn) (lookup_in _ _ _ Ef)) as (sg' & I & O). unfold entry_ok in O. cbn [fst snd] in O. destruct (sg' f) as [g'|] eqn:E'; [|discriminate].
  assert (g' = g) by (apply I in E'; congruence). subst g'.
  intros L vs K. cbn [call]. rewrite Ef. refine (func_sound (below sg' (level f)) (call Release no_base tbl k) fn g f _ O L vs K).
  intros f' g' B. unfold below in B. destruct (Nat.ltb_spec (level f') (level f)); [|discriminate]. apply IH; [now apply I|lia].
Qed.

(** ** The library *)
Definition shape_of (F : fld) (t : ty) : shape :=
  match t with
  | TInt => SNum (- W) (W - 1)
  | TBool => SNum 0 1
  | TIndex => SNum 0 (Z.of_nat (fl_n F) * fl_w F - 1)
  | TBitLength => SNum (nbits F) (nbits F)
  | TByteLength => SNum (Z.of_nat (fl_nb F)) (Z.of_nat (fl_nb F))
  | TElem => SArr (Z.of_nat (fl_n F)) (- W) (W - 1)
  | TBytes => SArr (Z.of_nat (fl_nb F)) 0 255
  | TBuffer => SBuf (Z.of_nat (fl_nb F)) 0 255
  | TDraws => SMin (Z.of_nat (fl_n F))
  | TText => SMin 0
  end.
Definition sig_of (F : fld) (tbl : list (string * func)) (f : string) : option sig :=
  match lookup f tbl, lookup f signatures with Some _, Some (ps, rs) => Some (map (shape_of F) ps, map (shape_of F) rs) | _, _ => None end.
Lemma fields_checked : forallb (fun F => forallb (entry_ok (sig_of F (fl_tbl F))) (fl_tbl F)) all_fields = true.
Proof. vm_cast_no_check (eq_refl true). Qed.
Definition d_vals : list (crv * func) := [(E_222, Src_curves.f_e_222_d_val); (Curve1174, Src_curves.f_curve1174_d_val); (E_382, Src_curves.f_e_382_d_val);
  (Curve41417, Src_curves.f_curve41417_d_val); (E_521, Src_curves.f_e_521_d_val)].
Lemma curves_checked : forallb (fun Cd => forallb (entry_ok (sig_of (cv_fld (fst Cd)) (cv_tbl (fst Cd)))) (("C::d_val", snd Cd) :: Src_edwards.table)) d_vals = true.
Proof. vm_cast_no_check (eq_refl true). Qed.
Lemma sig_here F tbl f g : sig_of F tbl f = Some g -> lookup f tbl <> None.
Proof. unfold sig_of. destruct (lookup f tbl); [discriminate|]. discriminate. Qed.
Lemma field_entries F : In F all_fields -> forall fs, In fs (fl_tbl F) -> entry_ok (sig_of F (fl_tbl F)) fs = true.
Proof. intros I. pose proof fields_checked as H. rewrite forallb_forall in H. specialize (H F I). now rewrite forallb_forall in H. Qed.
Lemma level_small f : (level f < 16)%nat.
Proof.
  assert (H : forall ls, (level_in ls f <= List.length ls)%nat) by (induction ls as [|l t IH]; cbn [level_in List.length]; [lia|]; destruct (existsb _ _); lia).
  specialize (H levels). unfold level. assert (List.length levels = 7%nat) by reflexivity. lia.
Qed.
Lemma field_sound F f g : In F all_fields -> sig_of F (fl_tbl F) f = Some g -> honours (rust_call Release (fl_tbl F)) f g.
Proof.
  intros I E. apply (table_sound (sig_of F (fl_tbl F)) (fl_tbl F) (sig_here F (fl_tbl F))); [|exact E|apply level_small].
  intros fs J. exists (sig_of F (fl_tbl F)). split; [auto|now apply field_entries].
Qed.
Lemma lookup_app {A} x (l k : list (string * A)) : lookup x (l ++ k) = match lookup x l with Some v => Some v | None => lookup x k end.
Proof. induction l as [|(y, v) l IH]; [reflexivity|]. cbn [app lookup]. destruct (String.eqb x y); auto. Qed.
Lemma curve_table C : In C all_curves -> In (cv_fld C) all_fields /\ exists d, In (C, d) d_vals /\ cv_tbl C = ("C::d_val", d) :: fl_tbl (cv_fld C) ++ Src_edwards.table.
Proof.
  intros H. repeat (destruct H as [<-|H]; [split; [cbn; tauto|eexists; split; [cbn; eauto 10|reflexivity]]|]). destruct H.
Qed.
Lemma curve_sound C f g : In C all_curves -> sig_of (cv_fld C) (cv_tbl C) f = Some g -> honours (rust_call Release (cv_tbl C)) f g.
Proof.
  intros I E. destruct (curve_table C I) as (IF & d & Id & T). apply (table_sound (sig_of (cv_fld C) (cv_tbl C)) (cv_tbl C) (sig_here _ _)); [|exact E|apply level_small].
  intros fs J. pose proof curves_checked as H. rewrite forallb_forall in H. specialize (H (C, d) Id). cbn [fst snd] in H. rewrite forallb_forall in H.
  assert (K : In fs (("C::d_val", d) :: Src_edwards.table) \/ In fs (fl_tbl (cv_fld C))).
  { rewrite T in J. destruct J as [J|J]; [left; now left|]. apply in_app_or in J as [J|J]; [now right|left; now right]. }
  destruct K as [K|K].
  - exists (sig_of (cv_fld C) (cv_tbl C)). split; [auto|now apply H].
  - exists (sig_of (cv_fld C) (fl_tbl (cv_fld C))). split; [|now apply field_entries]. intros f' g'. unfold sig_of. rewrite T. cbn [lookup].
    destruct (String.eqb f' "C::d_val"); rewrite ?lookup_app; destruct (lookup f' (fl_tbl (cv_fld C))); auto; discriminate.
Qed.

(** ** Types *)
Definition is_buffer (t : ty) : bool := match t with TBuffer => true | _ => false end.
Lemma type_fits F t v : In F all_fields -> has_type F t v -> forall L, (forall l, t = TBuffer -> v = VArr l -> L = len l) -> fits L (shape_of F t) v.
Proof.
  intros _ H L HL. destruct t, v; cbn [has_type shape_of fits] in *; try contradiction; unfold W, len, within in *; try lia.
  - destruct H as (H & K). split; [now rewrite H|]. eapply Forall_impl; [|exact K]. cbv beta. lia.
  - destruct H as (H & K). split; [now rewrite H|]. eapply Forall_impl; [|exact K]. cbv beta. lia.
  - destruct H as (H & K). specialize (HL l eq_refl eq_refl). repeat split; try lia. eapply Forall_impl; [|exact K]. cbv beta. lia.
Qed.
Lemma fits_type F t v L : fits L (shape_of F t) v -> has_type F t v.
Proof.
  intros H. destruct t, v; cbn [has_type shape_of fits] in *; try contradiction; unfold W, len, within in *; try lia; auto.
  - destruct H as (H & K). split; [lia|]. eapply Forall_impl; [|exact K]. cbv beta. lia.
  - destruct H as (H & K). split; [lia|]. eapply Forall_impl; [|exact K]. cbv beta. lia.
  - destruct H as (H & H' & K). split; [lia|]. eapply Forall_impl; [|exact K]. cbv beta. lia.
Qed.
Lemma types_fit F ts vs : In F all_fields -> (List.length (filter is_buffer ts) <= 1)%nat -> Forall2 (has_type F) ts vs -> exists L, Forall2 (fits L) (map (shape_of F) ts) vs.
Proof.
  intros I. assert (G : forall ts vs, List.length (filter is_buffer ts) = 0%nat -> Forall2 (has_type F) ts vs -> forall L, Forall2 (fits L) (map (shape_of F) ts) vs).
  { intros ts0 vs0 B H L. induction H as [|t v ts1 vs1 H Hs IH]; cbn [map]; constructor; cbn [filter] in B; destruct t; try discriminate; auto; apply type_fits; auto; discriminate. }
  intros B H. induction H as [|t v ts1 vs1 H Hs IH]; [exists 0; constructor|]. cbn [filter] in B. destruct (is_buffer t) eqn:E.
  - destruct t; try discriminate. destruct v as [|l]; [destruct H|]. exists (len l). cbn [map]. constructor.
    + apply type_fits; auto. intros k _ J. congruence.
    + apply G; auto. cbn [List.length] in B. lia.
  - destruct (IH B) as (L & K). exists L. cbn [map]. constructor; auto. apply type_fits; auto. intros k J. subst t. discriminate.
Qed.
Lemma fits_types F ts : forall vs L, Forall2 (fits L) (map (shape_of F) ts) vs -> Forall2 (has_type F) ts vs.
Proof. induction ts as [|t ts IH]; intros vs L H; inversion H; subst; constructor; [eapply fits_type; eassumption|eapply IH; eassumption]. Qed.
Lemma fits_left F ts : forall vs outs L, Forall2 (fits L) (map (shape_of F) ts) vs -> Forall2 (fits L) (map fin (map (shape_of F) ts)) outs -> left_all F ts vs outs.
Proof.
  induction ts as [|t ts IH]; intros vs outs L H K; inversion H; subst; inversion K; subst; constructor; [|eapply IH; eassumption].
  match goal with H : fits L (shape_of F t) ?v, K : fits L (fin (shape_of F t)) ?w |- _ => rename H into A; rename K into B; rename v into v1; rename w into w1 end.
  destruct t; cbn [left_in];
    try (split; [apply (fits_type F _ _ L); exact B|]; destruct v1, w1; cbn [shape_of fin fits] in A, B; try contradiction; cbn [same_shape]; auto; unfold len in *; lia).
  - destruct w1; cbn [shape_of fin fits] in B; [contradiction|]. eauto.
  - destruct w1; cbn [shape_of fin fits] in B; [contradiction|]. eauto.
Qed.
Lemma one_buffer : forallb (fun s => Nat.leb (List.length (filter is_buffer (fst (snd s)))) 1) signatures = true. Proof. reflexivity. Qed.
Lemma listed f ps rs : In (f, (ps, rs)) signatures -> lookup f signatures = Some (ps, rs).
Proof.
  intros H. enough (D : NoDup (map fst signatures)).
  { revert H D. generalize signatures. intros l. induction l as [|(y, v) l IH]; intros H D; [destruct H|]. cbn [lookup]. cbn [map fst] in D. apply NoDup_cons_iff in D as (D1 & D2).
    destruct (String.eqb_spec f y) as [->|NE].
    - destruct H as [H|H]; [congruence|]. exfalso. apply D1. now apply (in_map fst) in H.
    - destruct H as [H|H]; [congruence|auto]. }
  clear. assert (E : nodup string_dec (map fst signatures) = map fst signatures) by (vm_compute; reflexivity). rewrite <- E. apply NoDup_nodup.
Qed.
Definition well_typed_call (F : fld) (tbl : list (string * func)) : Prop := forall f ps rs vs, In (f, (ps, rs)) signatures -> lookup f tbl <> None -> Forall2 (has_type F) ps vs ->
  exists rets outs, rust_call Release tbl f vs = Ok (rets, outs) /\ Forall2 (has_type F) rs rets /\ left_all F ps vs outs.
Lemma calls_typed F tbl : In F all_fields -> (forall f g, sig_of F tbl f = Some g -> honours (rust_call Release tbl) f g) -> well_typed_call F tbl.
Proof.
  intros I H f ps rs vs S N T. pose proof one_buffer as B. rewrite forallb_forall in B. specialize (B _ S). apply Nat.leb_le in B. cbn [fst snd] in B.
  destruct (types_fit F ps vs I B T) as (L & K). destruct (H f (map (shape_of F) ps, map (shape_of F) rs)) with (L := L) (vs := vs) as (rets & outs & E & Kr & Ko); auto.
  { unfold sig_of. rewrite (listed f ps rs S). now destruct (lookup f tbl). }
  exists rets, outs. split; [exact E|]. split; [eapply fits_types; exact Kr|eapply fits_left; [exact K|exact Ko]].
Qed.
Lemma field_typed F : In F all_fields -> well_typed_call F (fl_tbl F).
Proof. intros I. apply calls_typed; auto. intros f g. now apply field_sound. Qed.
Lemma curve_typed C : In C all_curves -> well_typed_call (cv_fld C) (cv_tbl C).
Proof. intros I. apply calls_typed; [now apply (curve_table C I)|]. intros f g. now apply curve_sound. Qed.
Lemma field_listed F f fn : In F all_fields -> In (f, fn) (fl_tbl F) -> exists ps rs, In (f, (ps, rs)) field_signatures.
Proof.
  intros I J. assert (H : forallb (fun F => forallb (fun fs => match lookup (fst fs) field_signatures with Some _ => true | None => false end) (fl_tbl F)) all_fields = true) by (vm_compute; reflexivity).
  rewrite forallb_forall in H. specialize (H F I). rewrite forallb_forall in H. specialize (H _ J). cbn [fst] in H. destruct (lookup f field_signatures) as [(ps, rs)|] eqn:E; [|discriminate].
  exists ps, rs. now apply lookup_in.
Qed.
Lemma curve_listed C f fn : In C all_curves -> In (f, fn) (cv_tbl C) -> exists ps rs, In (f, (ps, rs)) signatures.
Proof.
  intros I J. assert (H : forallb (fun C => forallb (fun fs => match lookup (fst fs) signatures with Some _ => true | None => false end) (cv_tbl C)) all_curves = true) by (vm_compute; reflexivity).
  rewrite forallb_forall in H. specialize (H C I). rewrite forallb_forall in H. specialize (H _ J). cbn [fst] in H. destruct (lookup f signatures) as [(ps, rs)|] eqn:E; [|discriminate].
  exists ps, rs. now apply lookup_in.
Qed.

(** ** Programs *)
Lemma field_has F f : In F all_fields -> In f (map fst field_signatures) -> f <> "F::quartic_legendre" -> lookup f (fl_tbl F) <> None.
Proof.
  intros I J N. assert (H : forallb (fun F => forallb (fun f => String.eqb f "F::quartic_legendre" || match lookup f (fl_tbl F) with Some _ => true | None => false end) (map fst field_signatures)) all_fields = true)
    by (vm_compute; reflexivity).
  rewrite forallb_forall in H. specialize (H F I). rewrite forallb_forall in H. specialize (H f J). cbv beta in H. apply orb_true_iff in H as [H|H].
  - now apply String.eqb_eq in H.
  - now destruct (lookup f (fl_tbl F)).
Qed.
Lemma curve_has C f : In C all_curves -> In f (map fst curve_signatures) -> lookup f (cv_tbl C) <> None.
Proof.
  intros I J. assert (H : forallb (fun C => forallb (fun f => match lookup f (cv_tbl C) with Some _ => true | None => false end) (map fst curve_signatures)) all_curves = true)
    by (vm_compute; reflexivity).
  rewrite forallb_forall in H. specialize (H C I). rewrite forallb_forall in H. specialize (H f J). now destruct (lookup f (cv_tbl C)).
Qed.
Definition typed_call F tbl f ps rs : Prop := forall vs, Forall2 (has_type F) ps vs ->
  exists rets outs, rust_call Release tbl f vs = Ok (rets, outs) /\ Forall2 (has_type F) rs rets /\ left_all F ps vs outs.
Lemma field_call F f ps rs : In F all_fields -> lookup f field_signatures = Some (ps, rs) -> f <> "F::quartic_legendre" -> typed_call F (fl_tbl F) f ps rs.
Proof.
  intros I E N vs H. apply lookup_in in E. apply (field_typed F I f ps rs); auto; [unfold signatures; apply in_or_app; now left|].
  apply field_has; auto. now apply (in_map fst) in E.
Qed.
Lemma curve_call C f ps rs : In C all_curves -> lookup f curve_signatures = Some (ps, rs) -> typed_call (cv_fld C) (cv_tbl C) f ps rs.
Proof.
  intros I E vs H. apply lookup_in in E. apply (curve_typed C I f ps rs); auto; [unfold signatures; apply in_or_app; now right|].
  apply curve_has; auto. now apply (in_map fst) in E.
Qed.
Lemma elem_type F v : has_type F TElem v -> exists l, v = VArr l /\ is_i64s F l.
Proof. destruct v; cbn; [contradiction|eauto]. Qed.
Lemma replace_length {A} (l : list A) : forall i x, List.length (replace l i x) = List.length l.
Proof. induction l as [|h t IH]; intros [|i] x; cbn; auto. Qed.
Lemma replace_all {A} (Q : A -> Prop) (l : list A) : forall i x, Forall Q l -> Q x -> Forall Q (replace l i x).
Proof. induction l as [|h t IH]; intros [|i] x H K; cbn; auto; inversion H; subst; constructor; auto. Qed.
Lemma var_there F s i : (i < List.length (vars s))%nat -> Forall (is_i64s F) (vars s) -> exists a, var s i = Ok a /\ is_i64s F a.
Proof.
  intros H K. unfold var. destruct (nth_error (vars s) i) as [a|] eqn:E; [|apply nth_error_None in E; lia].
  exists a. split; [reflexivity|]. apply nth_error_In in E. rewrite Forall_forall in K. auto.
Qed.
Definition holds (F : fld) (n : nat) (s : state) : Prop := List.length (vars s) = n /\ Forall (is_i64s F) (vars s).
Lemma new_holds F s f ps vs : typed_call F (fl_tbl F) f ps [TElem] -> Forall2 (has_type F) ps vs -> Forall (is_i64s F) (vars s) ->
  exists s', new_var s (rust_call Release (fl_tbl F) f vs) = Ok s' /\ holds F (S (List.length (vars s))) s'.
Proof.
  intros T H K. destruct (T vs H) as (rets & outs & -> & R & _). inversion R as [|? v ? ? R1 R2]; subst. inversion R2; subst. apply elem_type in R1 as (l & -> & R1).
  eexists. split; [reflexivity|]. split; cbn [vars]; [rewrite app_length; cbn; lia|]. apply Forall_app. auto.
Qed.
Lemma set_holds F s i f ps rs a vs : typed_call F (fl_tbl F) f (TElem :: ps) rs -> Forall2 (has_type F) (TElem :: ps) (VArr a :: vs) -> Forall (is_i64s F) (vars s) ->
  exists s', set_var s i (rust_call Release (fl_tbl F) f (VArr a :: vs)) = Ok s' /\ holds F (List.length (vars s)) s'.
Proof.
  intros T H K. destruct (T _ H) as (rets & outs & -> & _ & O). inversion O as [|? ? ? ? v ? O1 O2]; subst. destruct O1 as (O1 & _). apply elem_type in O1 as (l & -> & O1).
  eexists. split; [reflexivity|]. split; cbn [vars]; [apply replace_length|now apply replace_all].
Qed.
Lemma see_holds F s i f ps r a vs : typed_call F (fl_tbl F) f (TElem :: ps) [r] -> Forall2 (has_type F) (TElem :: ps) (VArr a :: vs) -> Forall (is_i64s F) (vars s) ->
  exists s', see s i (rust_call Release (fl_tbl F) f (VArr a :: vs)) = Ok s' /\ holds F (List.length (vars s)) s'.
Proof.
  intros T H K. destruct (T _ H) as (rets & outs & -> & R & O). inversion O as [|? ? ? ? v ? O1 O2]; subst. destruct O1 as (O1 & _). apply elem_type in O1 as (l & -> & O1).
  inversion R as [|? u ? ? R1 R2]; subst. inversion R2; subst. eexists. split; [reflexivity|]. split; cbn [vars]; [apply replace_length|now apply replace_all].
Qed.
Ltac known F I := apply (field_call F _ _ _ I); [reflexivity|discriminate].
Ltac args := repeat (apply Forall2_cons || apply Forall2_nil); first [assumption | cbn [has_type]; auto].
Lemma i32_i64 F k : is_i32 k -> has_type F TInt (VInt k).
Proof. unfold is_i32. cbn. lia. Qed.
Lemma step_holds F c t s : In F all_fields -> formed F (c :: t) (List.length (vars s)) -> Forall (is_i64s F) (vars s) ->
  exists s', step Release F c s = Ok s' /\ formed F t (List.length (vars s')) /\ Forall (is_i64s F) (vars s').
Proof.
  intros I H K. assert (G : forall r n, formed F t n -> (exists s', r = Ok s' /\ holds F n s') -> exists s', r = Ok s' /\ formed F t (List.length (vars s')) /\ Forall (is_i64s F) (vars s')).
  { intros r n Ht (s' & E & E1 & E2). exists s'. rewrite E1. auto. }
  destruct c; cbn [formed step] in *.
  - apply (G _ _ H). destruct c; eapply new_holds; try exact K; [known F I|args|known F I|args|known F I|args|known F I|args].
  - destruct H as (H1 & H2 & H). apply (G _ _ H). eapply new_holds; [known F I|args|exact K].
  - destruct H as (H1 & H). apply (G _ _ H). eapply new_holds; [known F I|args|exact K].
  - destruct H as (H1 & H2 & H). destruct (var_there F s i H1 K) as (a & -> & A). destruct (var_there F s j H2 K) as (b & -> & B). cbn [bind]. apply (G _ _ H).
    destruct o; (eapply new_holds; [known F I|args|exact K]).
  - destruct H as (H1 & H2 & H). destruct (var_there F s i H1 K) as (a & -> & A). destruct (var_there F s j H2 K) as (b & -> & B). cbn [bind]. apply (G _ _ H).
    destruct o; (eapply set_holds; [known F I|args|exact K]).
  - destruct H as (H1 & H2 & H). destruct (var_there F s i H1 K) as (a & -> & A). cbn [bind]. apply (G _ _ H). apply (i32_i64 F) in H2.
    destruct o; (eapply new_holds; [known F I|args|exact K]).
  - destruct H as (H1 & H2 & H). destruct (var_there F s i H1 K) as (a & -> & A). cbn [bind]. apply (G _ _ H). apply (i32_i64 F) in H2.
    destruct o; (eapply set_holds; [known F I|args|exact K]).
  - destruct H as (H1 & H). destruct (var_there F s i H1 K) as (a & -> & A). cbn [bind]. apply (G _ _ H). destruct u; (eapply new_holds; [known F I|args|exact K]).
  - destruct H as (H1 & H). destruct (var_there F s i H1 K) as (a & -> & A). cbn [bind]. apply (G _ _ H). destruct u; (eapply set_holds; [known F I|args|exact K]).
  - destruct H as (H1 & H). destruct (var_there F s i H1 K) as (a & -> & A). cbn [bind]. apply (G _ _ H). eapply new_holds; [known F I|args|exact K].
  - destruct H as (H1 & H). destruct (var_there F s i H1 K) as (a & -> & A). cbn [bind]. apply (G _ _ H). eapply new_holds; [known F I|args|exact K].
  - destruct H as (H1 & H). destruct (var_there F s i H1 K) as (a & -> & A). cbn [bind]. apply (G _ _ H). eapply new_holds; [known F I|args|exact K].
  - destruct H as (H1 & H). destruct (var_there F s i H1 K) as (a & -> & A). cbn [bind]. apply (G _ _ H). eapply set_holds; [known F I|args|exact K].
  - destruct H as (H1 & H). destruct (var_there F s i H1 K) as (a & -> & A). cbn [bind]. apply (G _ _ H). eapply see_holds; [known F I|args|exact K].
  - destruct H as (H1 & H2 & H). destruct (var_there F s i H1 K) as (a & -> & A). destruct (var_there F s j H2 K) as (b & -> & B). cbn [bind]. apply (G _ _ H).
    assert (T : typed_call F (fl_tbl F) "F::normalize_eq" [TElem; TElem] [TBool]) by known F I.
    destruct (T [VArr a; VArr b] ltac:(args)) as (rets & outs & -> & R & O). inversion R as [|? u ? ? R1 R2]; subst. inversion R2; subst.
    inversion O as [|? ? ? ? v ? O1 O2]; subst. inversion O2 as [|? ? ? ? v2 ? O3 O4]; subst. inversion O4; subst.
    destruct O1 as (O1 & _). apply elem_type in O1 as (l & -> & O1). destruct O3 as (O3 & _). apply elem_type in O3 as (l' & -> & O3).
    eexists. split; [reflexivity|]. split; cbn [vars]; [now rewrite !replace_length|]. apply replace_all; auto. now apply replace_all.
  - destruct H as (H1 & H2 & H). destruct (var_there F s i H1 K) as (a & -> & A). cbn [bind]. apply (G _ _ H). eapply see_holds; [known F I|args|exact K].
  - destruct H as (H1 & H). destruct (var_there F s i H1 K) as (a & -> & A). cbn [bind]. apply (G _ _ H).
    assert (T : typed_call F (fl_tbl F) (if upper then "F::UpperHex::fmt" else "F::LowerHex::fmt") [TElem; TText] []) by (destruct upper; known F I).
    destruct (T [VArr a; VArr []] ltac:(args)) as (rets & outs & -> & R & O). inversion R; subst.
    inversion O as [|? ? ? ? v ? O1 O2]; subst. inversion O2 as [|? ? ? ? v2 ? O3 O4]; subst. inversion O4; subst. destruct O3 as (l & ->).
    eexists. split; [reflexivity|]. split; cbn [vars]; auto.
Qed.
Lemma programs_run F p : In F all_fields -> forall s, formed F p (List.length (vars s)) -> Forall (is_i64s F) (vars s) ->
  exists s', run Release F p s = Ok s' /\ Forall (is_i64s F) (vars s').
Proof.
  intros I. induction p as [|c t IH]; intros s H K; cbn [run]; [eauto|]. destruct (step_holds F c t s I H K) as (s' & -> & H' & K'). cbn [bind]. now apply IH.
Qed.
Definition any_point (C : crv) : ext -> Prop := each (is_i64s (cv_fld C)).
Lemma set_nth_length l : forall i x, List.length (set_nth l i x) = List.length l.
Proof. induction l as [|h t IH]; intros [|i] x; cbn; auto. Qed.
Lemma set_nth_all (Q : ext -> Prop) l : forall i x, Forall Q l -> Q x -> Forall Q (set_nth l i x).
Proof. induction l as [|h t IH]; intros [|i] x H K; cbn; auto; inversion H; subst; constructor; auto. Qed.
Lemma pvar_there C st i : (i < List.length st)%nat -> Forall (any_point C) st -> exists P, pvar st i = Ok P /\ any_point C P.
Proof.
  intros H K. unfold pvar. destruct (nth_error st i) as [a|] eqn:E; [|apply nth_error_None in E; lia].
  exists a. split; [reflexivity|]. apply nth_error_In in E. rewrite Forall_forall in K. auto.
Qed.
Definition pholds (C : crv) (n : nat) (st : list ext) : Prop := List.length st = n /\ Forall (any_point C) st.
Lemma coords_typed C P : any_point C P -> Forall2 (has_type (cv_fld C)) TPoint (coords P).
Proof. intros (x & y & z & t & -> & X & Y & Z & T). cbn. repeat constructor; cbn; apply X || apply Y || apply Z || apply T. Qed.
Lemma typed_coords C vs : Forall2 (has_type (cv_fld C)) TPoint vs -> exists P, to_ext vs = Ok P /\ any_point C P.
Proof.
  intros H. inversion H as [|? x ? ? X H1]; subst. inversion H1 as [|? y ? ? Y H2]; subst. inversion H2 as [|? z ? ? Z H3]; subst. inversion H3 as [|? t ? ? T H4]; subst.
  apply elem_type in X as (x' & -> & X). apply elem_type in Y as (y' & -> & Y). apply elem_type in Z as (z' & -> & Z). apply elem_type in T as (t' & -> & T).
  eexists. split; [reflexivity|]. exists x', y', z', t'. auto.
Qed.
Lemma left_coords C ps vs outs : left_all (cv_fld C) (TPoint ++ ps) vs outs -> exists P, to_ext outs = Ok P /\ any_point C P.
Proof.
  intros H. cbn in H. inversion H as [|? ? ? ? x ? X H1]; subst. inversion H1 as [|? ? ? ? y ? Y H2]; subst. inversion H2 as [|? ? ? ? z ? Z H3]; subst. inversion H3 as [|? ? ? ? t ? T H4]; subst.
  destruct X as (X & _), Y as (Y & _), Z as (Z & _), T as (T & _).
  apply elem_type in X as (x' & -> & X). apply elem_type in Y as (y' & -> & Y). apply elem_type in Z as (z' & -> & Z). apply elem_type in T as (t' & -> & T).
  eexists. split; [reflexivity|]. exists x', y', z', t'. auto.
Qed.
Lemma new_pholds C st f ps vs : typed_call (cv_fld C) (cv_tbl C) f ps TPoint -> Forall2 (has_type (cv_fld C)) ps vs -> Forall (any_point C) st ->
  exists st', new_point st (rust_call Release (cv_tbl C) f vs) = Ok st' /\ pholds C (S (List.length st)) st'.
Proof.
  intros T H K. destruct (T vs H) as (rets & outs & -> & R & _). unfold new_point. cbn [bind fst]. destruct (typed_coords C rets R) as (P & -> & A). cbn [bind].
  eexists. split; [reflexivity|]. split; [rewrite app_length; cbn; lia|]. apply Forall_app. auto.
Qed.
Lemma set_pholds C st i f ps rs vs : typed_call (cv_fld C) (cv_tbl C) f (TPoint ++ ps) rs -> Forall2 (has_type (cv_fld C)) (TPoint ++ ps) vs -> Forall (any_point C) st ->
  exists st', set_point st i (rust_call Release (cv_tbl C) f vs) = Ok st' /\ pholds C (List.length st) st'.
Proof.
  intros T H K. destruct (T vs H) as (rets & outs & -> & _ & O). unfold set_point. cbn [bind snd]. destruct (left_coords C ps vs outs O) as (P & -> & A). cbn [bind].
  eexists. split; [reflexivity|]. split; [apply set_nth_length|now apply set_nth_all].
Qed.
Ltac pknown C I := apply (curve_call C _ _ _ I); reflexivity.
Ltac pargs := apply Forall2_app; [now apply coords_typed|]; first [now apply coords_typed | args].
Lemma pstep_holds C c t st : In C all_curves -> pformed C (c :: t) (List.length st) -> Forall (any_point C) st ->
  exists st', pstep Release C c st = Ok st' /\ pformed C t (List.length st') /\ Forall (any_point C) st'.
Proof.
  intros I H K. assert (G : forall r n, pformed C t n -> (exists s', r = Ok s' /\ pholds C n s') -> exists s', r = Ok s' /\ pformed C t (List.length s') /\ Forall (any_point C) s').
  { intros r n Ht (s' & E & E1 & E2). exists s'. rewrite E1. auto. }
  destruct c; cbn [pformed pstep] in *.
  - apply (G _ _ H). eapply new_pholds; [pknown C I|constructor|exact K].
  - destruct H as (H1 & H2 & H3 & H). destruct (pvar_there C st i H1 K) as (P & -> & A). cbn [bind]. apply (G _ _ H). apply (set_pholds C st i _ [TElem; TElem] []); [pknown C I|pargs|exact K].
  - destruct H as (H1 & H2 & H). destruct (pvar_there C st i H1 K) as (P & -> & A). destruct (pvar_there C st j H2 K) as (Q & -> & B). cbn [bind]. apply (G _ _ H).
    apply (new_pholds C st _ (TPoint ++ TPoint)); [pknown C I|pargs|exact K].
  - destruct H as (H1 & H2 & H). destruct (pvar_there C st i H1 K) as (P & -> & A). destruct (pvar_there C st j H2 K) as (Q & -> & B). cbn [bind]. apply (G _ _ H).
    apply (set_pholds C st i _ TPoint []); [pknown C I|pargs|exact K].
  - destruct H as (H1 & H). destruct (pvar_there C st i H1 K) as (P & -> & A). cbn [bind]. apply (G _ _ H). apply (set_pholds C st i _ [] []); [pknown C I|now apply coords_typed|exact K].
  - destruct H as (H1 & H). destruct (pvar_there C st i H1 K) as (P & -> & A). cbn [bind]. apply (G _ _ H). apply (new_pholds C st _ TPoint); [pknown C I|now apply coords_typed|exact K].
  - destruct H as (H1 & H). destruct (pvar_there C st i H1 K) as (P & -> & A). cbn [bind]. apply (G _ _ H). apply (set_pholds C st i _ [] []); [pknown C I|now apply coords_typed|exact K].
  - destruct H as (H1 & H). destruct (pvar_there C st i H1 K) as (P & -> & A). cbn [bind]. apply (G _ _ H). apply (new_pholds C st _ TPoint); [pknown C I|now apply coords_typed|exact K].
  - destruct H as (H1 & H2 & H). destruct (pvar_there C st i H1 K) as (P & -> & A). cbn [bind]. apply (G _ _ H). apply (set_pholds C st i _ [TElem] []); [pknown C I|pargs|exact K].
  - destruct H as (H1 & H2 & H). destruct (pvar_there C st i H1 K) as (P & -> & A). cbn [bind]. apply (G _ _ H). apply (set_pholds C st i _ [TElem] []); [pknown C I|pargs|exact K].
Qed.
Lemma point_programs_run C p : In C all_curves -> forall st, pformed C p (List.length st) -> Forall (any_point C) st ->
  exists st', prun Release C p st = Ok st' /\ Forall (any_point C) st'.
Proof.
  intros I. induction p as [|c t IH]; intros s H K; cbn [prun]; [eauto|]. destruct (pstep_holds C c t s I H K) as (s' & -> & H' & K'). cbn [bind]. now apply IH.
Qed.
