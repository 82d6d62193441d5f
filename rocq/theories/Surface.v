(** Constants, negation, masks, bitwise operations, random elements, formatting. *)
From Coq Require Import ZArith List String Lia Bool.
From Verif Require Import Lang Poly Kernel Fields Kfacts Ops Words Codec Normalize Methods.
From Verif Require Src_e221_3.
Import ListNotations.
Local Open Scope string_scope.
Local Open Scope Z_scope.

(** ** Constants *)
Definition b_const (l : list Z) : func := mkfunc [] [] [ELit l].
Lemma const_body F : In F all_fields ->
  lookup "F::zero" (fl_tbl F) = Some (b_const (lit F "F::zero")) /\
  lookup "F::one" (fl_tbl F) = Some (b_const (lit F "F::one")) /\
  lookup "F::m_one" (fl_tbl F) = Some (b_const (lit F "F::m_one")) /\
  lookup "F::modulus" (fl_tbl F) = Some (b_const (lit F "F::modulus")) /\
  lookup "F::nbits" (fl_tbl F) = Some (mkfunc [] [] [EInt (nbits F)]) /\
  lookup "F::nbytes" (fl_tbl F) = Some (mkfunc [] [] [EInt (Z.of_nat (fl_nb F))]).
Proof. intros H. repeat (destruct H as [<-|H]; [repeat split; reflexivity|]); destruct H. Qed.
Lemma const_runs F f l : lookup f (fl_tbl F) = Some (b_const l) -> runsd 1 F f [] [VArr l] [].
Proof. intros L. eapply body_runs; [exact L|]. reflexivity. Qed.
Lemma int_runs F f z : lookup f (fl_tbl F) = Some (mkfunc [] [] [EInt z]) -> runsd 1 F f [] [VInt z] [].
Proof. intros L. eapply body_runs; [exact L|]. reflexivity. Qed.

(** ** Negation: what the code computes is self + p *)
Definition b_neg (F : fld) : func :=
  mkfunc ["self"] [SLet "out" (EVar "self"); SCall [] "F::add_assign(&F)" [AMut "out"; AVal (ELit (lit F "F::modulus"))]] [EVar "out"].
Lemma neg_body F : In F all_fields -> lookup "F::neg" (fl_tbl F) = Some (b_neg F).
Proof. intros H. by_field H. Qed.
Lemma modulus_tight F : In F all_fields -> tight F (to_words F (modulus F)).
Proof.
  intros H. apply to_words_tight; auto. pose proof (modulus_pos F H). destruct (layout_facts F H) as (_ & _ & _ & C & _).
  unfold modulus in *. lia.
Qed.
Lemma neg_runs F a : In F all_fields -> any_rep F a ->
  exists o, runsd 2 F "F::neg" [VArr a] [VArr o] [VArr a] /\ rep F (-1) (2 * B F) o /\ value F o = folded F a + modulus F /\
    (tight F a -> summand F o).
Proof.
  intros H A. pose proof (modulus_tight F H) as T.
  destruct (add_ok F a (to_words F (modulus F)) H A (tight_any F _ H T)) as (o & R & Ro & Vo & _ & S).
  exists o. split; [|split; [exact Ro|split; [|auto]]].
  - apply (call_step _ _ _ _ _ _ _ (neg_body F H)). intros md fuel Hf. unfold b_neg. rewrite lit_modulus by auto. evm. callee R. reflexivity.
  - rewrite Vo, (tight_folded F _ H T), to_words_value by auto. reflexivity.
Qed.

(** ** Writing all words in turn *)
Lemma upd_nth_spec l i v : (i < List.length l)%nat -> upd_nth l i v = Some (firstn i l ++ v :: skipn (S i) l)%list.
Proof.
  revert i. induction l as [|x l IH]; intros [|i] H; simpl in H; try lia; cbn [upd_nth].
  - reflexivity.
  - rewrite IH by lia. reflexivity.
Qed.
Lemma zset_nth l i v : (i < List.length l)%nat -> zset l (Z.of_nat i) v = Some (firstn i l ++ v :: skipn (S i) l)%list.
Proof. intros H. unfold zset. destruct (Z.ltb_spec (Z.of_nat i) 0); [lia|]. rewrite Nat2Z.id. apply upd_nth_spec; auto. Qed.

(** the first [k] words rewritten by [g], the others as before *)
Definition upto (g : nat -> Z) (k : nat) (l : list Z) : list Z := (map g (seq 0 k) ++ skipn k l)%list.
Lemma upto_step g k l : (k < List.length l)%nat -> zset (upto g k l) (Z.of_nat k) (g k) = Some (upto g (S k) l).
Proof.
  intros H. assert (Lm : List.length (map g (seq 0 k)) = k) by (rewrite map_length, seq_length; reflexivity).
  rewrite zset_nth.
  2:{ unfold upto. rewrite app_length, Lm, skipn_length. lia. }
  f_equal. unfold upto. rewrite firstn_app, Lm, Nat.sub_diag, firstn_O, app_nil_r, firstn_all2 by lia.
  rewrite skipn_app, Lm, skipn_all2 by lia. rewrite app_nil_l.
  replace (S k - k)%nat with 1%nat by lia. rewrite seq_S, map_app, <- app_assoc. cbn [map app plus].
  f_equal. f_equal. clear -H. revert k H. induction l as [|x l IH]; intros [|k] H; cbn [List.length] in H; try lia; auto.
  cbn [skipn]. apply IH. lia.
Qed.
Lemma upto_nth g k l : (k < List.length l)%nat -> nth k (upto g k l) 0 = nth k l 0.
Proof.
  intros H. unfold upto. rewrite app_nth2; rewrite map_length, seq_length; [|lia]. rewrite Nat.sub_diag.
  clear -H. revert k H. induction l as [|x l IH]; intros [|k] H; simpl in *; try lia; auto. apply IH. lia.
Qed.
Lemma upto_len g k l : (k <= List.length l)%nat -> List.length (upto g k l) = List.length l.
Proof. intros H. unfold upto. rewrite app_length, map_length, seq_length, skipn_length. lia. Qed.
Lemma upto_all g l : upto g (List.length l) l = map g (seq 0 (List.length l)).
Proof. unfold upto. rewrite skipn_all, app_nil_r. reflexivity. Qed.

(** ** Masks *)
Definition mask_lets : list stmt :=
  [ SLet "mask" (ECast I64 (EVar "bit"));
    SLet "mask" (EOr (EVar "mask") (EShl (EVar "mask") (EInt 1)));
    SLet "mask" (EOr (EVar "mask") (EShl (EVar "mask") (EInt 2)));
    SLet "mask" (EOr (EVar "mask") (EShl (EVar "mask") (EInt 4)));
    SLet "mask" (EOr (EVar "mask") (EShl (EVar "mask") (EInt 8)));
    SLet "mask" (EOr (EVar "mask") (EShl (EVar "mask") (EInt 16)));
    SLet "mask" (EOr (EVar "mask") (EShl (EVar "mask") (EInt 32))) ].
Definition b_fill (F : fld) : func :=
  mkfunc ["self"; "bit"] (mask_lets ++ map (fun i => SSet "self" (EInt (Z.of_nat i)) (EVar "mask")) (seq 0 (fl_n F))) [].
Definition b_filled (F : fld) : func := mkfunc ["bit"] mask_lets [ERep (EVar "mask") (fl_n F)].
Lemma fill_body F : In F all_fields -> lookup "F::fill" (fl_tbl F) = Some (b_fill F) /\
  lookup "Mask::fill" (fl_tbl F) = Some (b_fill F) /\ lookup "F::filled" (fl_tbl F) = Some (b_filled F) /\
  lookup "Mask::filled" (fl_tbl F) = Some (b_filled F).
Proof. intros H. repeat (destruct H as [<-|H]; [repeat split; reflexivity|]); destruct H. Qed.

Lemma exec_list_app md cl l1 l2 en : exec_list md cl (l1 ++ l2)%list en = bind (exec_list md cl l1 en) (exec_list md cl l2).
Proof. revert en. induction l1 as [|s l IH]; intros en; [reflexivity|]. cbn [app exec_list].
  destruct (exec md cl s en); cbn [bind]; auto. Qed.

Definition mask_of (b : bool) : Z := if b then -1 else 0.
Lemma mask_lets_run1 md cl b x : exec_list md cl mask_lets [("self", x); ("bit", VInt (b2z b))] =
  Ok [("self", x); ("bit", VInt (b2z b)); ("mask", VInt (mask_of b))].
Proof. destruct b, md; reflexivity. Qed.
Lemma mask_lets_run2 md cl b : exec_list md cl mask_lets [("bit", VInt (b2z b))] =
  Ok [("bit", VInt (b2z b)); ("mask", VInt (mask_of b))].
Proof. destruct b, md; reflexivity. Qed.
Lemma fill_steps md cl a v b k : (k <= List.length a)%nat ->
  exec_list md cl (map (fun i => SSet "self" (EInt (Z.of_nat i)) (EVar "mask")) (seq 0 k))
    [("self", VArr a); ("bit", b); ("mask", VInt v)] =
  Ok [("self", VArr (upto (fun _ => v) k a)); ("bit", b); ("mask", VInt v)].
Proof.
  induction k as [|k IH]; intros H; [reflexivity|].
  rewrite seq_S, map_app, exec_list_app, IH by lia. evm. cbn [map plus]. evm.
  rewrite (upto_step (fun _ => v)) by lia. reflexivity.
Qed.
Lemma map_const (v : Z) n s : map (fun _ => v) (seq s n) = repeat v n.
Proof. revert s. induction n as [|n IH]; intros s; simpl; auto. rewrite IH. reflexivity. Qed.
Lemma fill_runs F f a b : In F all_fields -> In f ["F::fill"; "Mask::fill"] -> List.length a = fl_n F ->
  runsd 1 F f [VArr a; VInt (b2z b)] [] [VArr (repeat (mask_of b) (fl_n F)); VInt (b2z b)].
Proof.
  intros H Hf L. destruct (fill_body F H) as (B1 & B2 & _).
  assert (lookup f (fl_tbl F) = Some (b_fill F)) as B3 by (destruct Hf as [<-|[<-|[]]]; auto).
  eapply body_runs; [exact B3|]. intros md cl. unfold run_func, b_fill.
  cbn [f_params f_body f_rets List.length Nat.eqb combine]. rewrite exec_list_app, mask_lets_run1.
  cbn [bind app]. rewrite <- L, fill_steps, upto_all, map_const by lia. reflexivity.
Qed.
Lemma filled_runs F f b : In F all_fields -> In f ["F::filled"; "Mask::filled"] ->
  runsd 1 F f [VInt (b2z b)] [VArr (repeat (mask_of b) (fl_n F))] [VInt (b2z b)].
Proof.
  intros H Hf. destruct (fill_body F H) as (_ & _ & B1 & B2).
  assert (lookup f (fl_tbl F) = Some (b_filled F)) as B3 by (destruct Hf as [<-|[<-|[]]]; auto).
  eapply body_runs; [exact B3|]. intros md cl. unfold run_func, b_filled.
  cbn [f_params f_body f_rets List.length Nat.eqb combine]. rewrite mask_lets_run2. reflexivity.
Qed.

(** ** Word-wise and / or *)
Definition b_bitop (F : fld) (op : expr -> expr -> expr) : func :=
  mkfunc ["self"; "rhs"] (map (fun i => SSet "self" (EInt (Z.of_nat i))
     (op (EIdx (EVar "self") (EInt (Z.of_nat i))) (EIdx (EVar "rhs") (EInt (Z.of_nat i))))) (seq 0 (fl_n F))) [].
Lemma bitop_body F : In F all_fields -> lookup "F::normalized_bitand" (fl_tbl F) = Some (b_bitop F EAnd) /\
  lookup "F::normalized_bitor" (fl_tbl F) = Some (b_bitop F EOr).
Proof. intros H. repeat (destruct H as [<-|H]; [repeat split; reflexivity|]); destruct H. Qed.
Definition zipw (g : Z -> Z -> Z) (n : nat) (a b : list Z) : list Z := map (fun i => g (nth i a 0) (nth i b 0)) (seq 0 n).
Lemma bitop_steps md cl (op : expr -> expr -> expr) g a b k :
  (forall x y en vx vy, eval md x en = Ok (VInt vx) -> eval md y en = Ok (VInt vy) -> eval md (op x y) en = Ok (VInt (g vx vy))) ->
  (k <= List.length a)%nat -> (k <= List.length b)%nat ->
  exec_list md cl (map (fun i => SSet "self" (EInt (Z.of_nat i))
     (op (EIdx (EVar "self") (EInt (Z.of_nat i))) (EIdx (EVar "rhs") (EInt (Z.of_nat i))))) (seq 0 k))
    [("self", VArr a); ("rhs", VArr b)] =
  Ok [("self", VArr (upto (fun i => g (nth i a 0) (nth i b 0)) k a)); ("rhs", VArr b)].
Proof.
  intros HO. induction k as [|k IH]; intros La Lb; [reflexivity|].
  rewrite seq_S, map_app, exec_list_app, IH by lia. cbn [bind map plus].
  cbn [exec_list exec]. rewrite (HO _ _ _ (nth k a 0) (nth k b 0)).
  - evm. rewrite (upto_step (fun i => g (nth i a 0) (nth i b 0))) by lia. reflexivity.
  - evm. rewrite znth_nth by (rewrite upto_len; lia). rewrite upto_nth by lia. reflexivity.
  - evm. rewrite znth_nth by lia. reflexivity.
Qed.
Lemma bitand_words F a b : In F all_fields -> List.length a = fl_n F -> List.length b = fl_n F ->
  runsd 1 F "F::normalized_bitand" [VArr a; VArr b] [] [VArr (zipw Z.land (fl_n F) a b); VArr b].
Proof.
  intros H La Lb. destruct (bitop_body F H) as (B1 & _). eapply body_runs; [exact B1|]. intros md cl.
  unfold run_func, b_bitop. cbn [f_params f_body f_rets List.length Nat.eqb combine].
  rewrite (bitop_steps md cl EAnd Z.land) by (try lia; intros x y en vx vy Ex Ey; cbn [eval]; rewrite Ex, Ey; reflexivity).
  rewrite <- La, upto_all. reflexivity.
Qed.
Lemma bitor_words F a b : In F all_fields -> List.length a = fl_n F -> List.length b = fl_n F ->
  runsd 1 F "F::normalized_bitor" [VArr a; VArr b] [] [VArr (zipw Z.lor (fl_n F) a b); VArr b].
Proof.
  intros H La Lb. destruct (bitop_body F H) as (_ & B1). eapply body_runs; [exact B1|]. intros md cl.
  unfold run_func, b_bitop. cbn [f_params f_body f_rets List.length Nat.eqb combine].
  rewrite (bitop_steps md cl EOr Z.lor) by (try lia; intros x y en vx vy Ex Ey; cbn [eval]; rewrite Ex, Ey; reflexivity).
  rewrite <- La, upto_all. reflexivity.
Qed.

(** bits of a sum of disjoint parts *)
Lemma testbit_split w x y i : 0 <= w -> 0 <= x < 2 ^ w -> 0 <= i ->
  Z.testbit (x + 2 ^ w * y) i = if i <? w then Z.testbit x i else Z.testbit y (i - w).
Proof.
  intros Hw Hx Hi. destruct (Z.ltb_spec i w).
  - rewrite <- (Z.mod_pow2_bits_low (x + 2 ^ w * y) w i) by lia.
    rewrite (Z.mul_comm (2 ^ w)), Z.mod_add by lia. rewrite Z.mod_small by lia. reflexivity.
  - replace y with ((x + 2 ^ w * y) / 2 ^ w) at 2.
    2:{ rewrite (Z.mul_comm (2 ^ w)), Z.div_add, Z.div_small by lia. lia. }
    rewrite Z.div_pow2_bits by lia. f_equal. ring.
Qed.
Lemma bitop_split (g : Z -> Z -> Z) (bg : bool -> bool -> bool) w x y X Y : 0 <= w ->
  (forall u v i, 0 <= i -> Z.testbit (g u v) i = bg (Z.testbit u i) (Z.testbit v i)) ->
  0 <= x < 2 ^ w -> 0 <= y < 2 ^ w -> 0 <= g x y < 2 ^ w -> g (x + 2 ^ w * X) (y + 2 ^ w * Y) = g x y + 2 ^ w * g X Y.
Proof.
  intros Hw Hg Hx Hy Hxy. apply Z.bits_inj'. intros i Hi.
  rewrite Hg, !testbit_split by lia. destruct (i <? w) eqn:E.
  - rewrite Hg by lia. reflexivity.
  - rewrite Hg by lia. reflexivity.
Qed.
Lemma land_bound w x y : 0 <= w -> 0 <= x < 2 ^ w -> 0 <= y < 2 ^ w -> 0 <= Z.land x y < 2 ^ w.
Proof.
  intros Hw Hx Hy. split; [apply Z.land_nonneg; lia|].
  destruct (Z.eq_dec (Z.land x y) 0) as [->|N]; [lia|].
  pose proof (proj2 (Z.land_nonneg x y) (or_introl (proj1 Hx))).
  apply Z.log2_lt_pow2; [lia|].
  assert (0 < x). { destruct (Z.eq_dec x 0) as [->|]; [rewrite Z.land_0_l in N; lia|lia]. }
  assert (0 < y). { destruct (Z.eq_dec y 0) as [->|]; [rewrite Z.land_0_r in N; lia|lia]. }
  pose proof (Z.log2_land x y ltac:(lia) ltac:(lia)). pose proof (proj1 (Z.log2_lt_pow2 x w ltac:(lia)) ltac:(lia)). lia.
Qed.
Lemma lor_bound w x y : 0 <= w -> 0 <= x < 2 ^ w -> 0 <= y < 2 ^ w -> 0 <= Z.lor x y < 2 ^ w.
Proof.
  intros Hw Hx Hy. split; [apply Z.lor_nonneg; lia|].
  destruct (Z.eq_dec (Z.lor x y) 0) as [->|N]; [lia|].
  pose proof (proj2 (Z.lor_nonneg x y) (conj (proj1 Hx) (proj1 Hy))).
  apply Z.log2_lt_pow2; [lia|]. rewrite Z.log2_lor by lia.
  assert (LL : forall u, 0 <= u < 2 ^ w -> Z.log2 u < w \/ (u = 0 /\ w = 0)).
  { intros u Hu. destruct (Z.eq_dec u 0) as [->|]; [|left; apply Z.log2_lt_pow2; lia].
    change (Z.log2 0) with 0. destruct (Z.eq_dec w 0); [right; auto|left; lia]. }
  destruct (LL x Hx) as [H1|[-> H1]], (LL y Hy) as [H2|[-> H2]]; [lia| | |exfalso; apply N; reflexivity];
    subst w; change (2 ^ 0) with 1 in *; exfalso; apply N;
    [replace x with 0 by lia|replace y with 0 by lia]; reflexivity.
Qed.
Lemma zipw_value (g : Z -> Z -> Z) (bg : bool -> bool -> bool) w :
  0 <= w -> g 0 0 = 0 -> (forall u v i, 0 <= i -> Z.testbit (g u v) i = bg (Z.testbit u i) (Z.testbit v i)) ->
  (forall x y, 0 <= x < 2 ^ w -> 0 <= y < 2 ^ w -> 0 <= g x y < 2 ^ w) ->
  forall n a b, List.length a = n -> List.length b = n ->
  (forall i, (i < n)%nat -> 0 <= nth i a 0 < 2 ^ w) -> (forall i, (i < n)%nat -> 0 <= nth i b 0 < 2 ^ w) ->
  words_value w (zipw g n a b) = g (words_value w a) (words_value w b).
Proof.
  intros Hw H0 Hg Hb. induction n as [|n IH]; intros [|x a] [|y b] La Lb Ha Hbb; try discriminate.
  - simpl. rewrite H0. reflexivity.
  - unfold zipw in *. cbn [seq map nth words_value]. rewrite <- seq_shift, map_map. cbn [nth].
    rewrite IH; [|simpl in *; lia|simpl in *; lia|intros i Hi; apply (Ha (S i)); lia|intros i Hi; apply (Hbb (S i)); lia].
    pose proof (Ha 0%nat ltac:(lia)). pose proof (Hbb 0%nat ltac:(lia)). cbn [nth] in *.
    rewrite (bitop_split g bg) by auto. reflexivity.
Qed.
Lemma tight_words F a : In F all_fields -> tight F a ->
  List.length a = fl_n F /\ forall i, (i < fl_n F)%nat -> 0 <= nth i a 0 < 2 ^ fl_w F.
Proof.
  intros H (L & A & T). split; auto. intros i Hi. destruct (layout_facts F H) as (Ln & Lw & Lt & _).
  destruct (Nat.eq_dec i (fl_n F - 1)) as [->|N]; [|apply A; lia].
  unfold top in T. split; [lia|]. assert (2 ^ fl_tb F <= 2 ^ fl_w F) by (apply Z.pow_le_mono_r; lia). lia.
Qed.
Lemma nth_map_seq (g : nat -> Z) n s i : (i < n)%nat -> nth i (map g (seq s n)) 0 = g (s + i)%nat.
Proof.
  revert s i. induction n as [|n IH]; intros s [|i] H; try lia; cbn [seq map nth].
  - rewrite Nat.add_0_r. reflexivity.
  - rewrite IH by lia. f_equal. lia.
Qed.
Lemma zipw_nth g n a b i : (i < n)%nat -> nth i (zipw g n a b) 0 = g (nth i a 0) (nth i b 0).
Proof. intros H. unfold zipw. rewrite nth_map_seq by auto. reflexivity. Qed.
Lemma zipw_tight F g a b : In F all_fields -> (forall w x y, 0 <= w -> 0 <= x < 2 ^ w -> 0 <= y < 2 ^ w -> 0 <= g x y < 2 ^ w) ->
  tight F a -> tight F b -> tight F (zipw g (fl_n F) a b).
Proof.
  intros H Hg Ta Tb. destruct (layout_facts F H) as (Ln & Lw & Lt & _).
  pose proof (tight_words F a H Ta) as [La Wa]. pose proof (tight_words F b H Tb) as [Lb Wb].
  split; [unfold zipw; rewrite map_length, seq_length; auto|]. split.
  - intros i Hi. rewrite zipw_nth by lia. apply Hg; [lia|apply Wa; lia|apply Wb; lia].
  - unfold top. rewrite zipw_nth by lia. destruct Ta as (_ & _ & Ta), Tb as (_ & _ & Tb).
    pose proof (Hg (fl_tb F) (top F a) (top F b) ltac:(lia) ltac:(lia) ltac:(lia)). unfold top in *. lia.
Qed.
Lemma bitand_runs F a b : In F all_fields -> tight F a -> tight F b ->
  exists o, runsd 1 F "F::normalized_bitand" [VArr a; VArr b] [] [VArr o; VArr b] /\ tight F o /\ value F o = Z.land (value F a) (value F b).
Proof.
  intros H Ta Tb. destruct (layout_facts F H) as (_ & Lw & _).
  pose proof (tight_words F a H Ta) as [La Wa]. pose proof (tight_words F b H Tb) as [Lb Wb].
  exists (zipw Z.land (fl_n F) a b). split; [apply bitand_words; auto|]. split.
  - apply zipw_tight; auto. apply land_bound.
  - unfold value. apply (zipw_value Z.land andb); auto; try lia.
    + intros. apply Z.land_spec.
    + intros. apply land_bound; lia.
Qed.
Lemma bitor_runs F a b : In F all_fields -> tight F a -> tight F b ->
  exists o, runsd 1 F "F::normalized_bitor" [VArr a; VArr b] [] [VArr o; VArr b] /\ tight F o /\ value F o = Z.lor (value F a) (value F b).
Proof.
  intros H Ta Tb. destruct (layout_facts F H) as (_ & Lw & _).
  pose proof (tight_words F a H Ta) as [La Wa]. pose proof (tight_words F b H Tb) as [Lb Wb].
  exists (zipw Z.lor (fl_n F) a b). split; [apply bitor_words; auto|]. split.
  - apply zipw_tight; auto. apply lor_bound.
  - unfold value. apply (zipw_value Z.lor orb); auto; try lia.
    + intros. apply Z.lor_spec.
    + intros. apply lor_bound; lia.
Qed.

(** the normalising forms *)
Lemma same_nbitand : same "F::normalize_bitand" Src_e221_3.f_normalize_bitand. Proof. same_tac. Qed.
Lemma same_nsbitand : same "F::normalize_self_bitand" Src_e221_3.f_normalize_self_bitand. Proof. same_tac. Qed.
Lemma same_nbitor : same "F::normalize_bitor" Src_e221_3.f_normalize_bitor. Proof. same_tac. Qed.
Lemma same_nsbitor : same "F::normalize_self_bitor" Src_e221_3.f_normalize_self_bitor. Proof. same_tac. Qed.
Lemma nsbitand_step F a b o : In F all_fields -> normal F a ->
  runsd 1 F "F::normalized_bitand" [VArr (canon F a); VArr b] [] [VArr o; VArr b] ->
  runsd 5 F "F::normalize_self_bitand" [VArr a; VArr b] [] [VArr o; VArr b].
Proof.
  intros H N R. pose proof (normalize_normal F a H N) as R1.
  apply (call_step _ _ _ _ _ _ _ (same_nsbitand F H)). intros md fuel Hf.
  unfold Src_e221_3.f_normalize_self_bitand. evm. callee R1. callee R. reflexivity.
Qed.
Lemma nsbitor_step F a b o : In F all_fields -> normal F a ->
  runsd 1 F "F::normalized_bitor" [VArr (canon F a); VArr b] [] [VArr o; VArr b] ->
  runsd 5 F "F::normalize_self_bitor" [VArr a; VArr b] [] [VArr o; VArr b].
Proof.
  intros H N R. pose proof (normalize_normal F a H N) as R1.
  apply (call_step _ _ _ _ _ _ _ (same_nsbitor F H)). intros md fuel Hf.
  unfold Src_e221_3.f_normalize_self_bitor. evm. callee R1. callee R. reflexivity.
Qed.
Lemma nbitand_runs F a b : In F all_fields -> normal F a -> normal F b ->
  exists o, runsd 6 F "F::normalize_bitand" [VArr a; VArr b] [] [VArr o; VArr (canon F b)] /\ tight F o /\
    value F o = Z.land (value F a mod modulus F) (value F b mod modulus F).
Proof.
  intros H Na Nb. destruct (canon_canonical F a H) as [Ta _]. destruct (canon_canonical F b H) as [Tb _].
  destruct (bitand_runs F _ _ H Ta Tb) as (o & R & To & Vo).
  pose proof (nsbitand_step F a _ o H Na R) as R1. pose proof (normalize_normal F b H Nb) as R2.
  exists o. rewrite !canon_value in Vo by auto. split; auto.
  apply (call_step _ _ _ _ _ _ _ (same_nbitand F H)). intros md fuel Hf.
  unfold Src_e221_3.f_normalize_bitand. evm. callee R2. callee R1. reflexivity.
Qed.
Lemma nbitor_runs F a b : In F all_fields -> normal F a -> normal F b ->
  exists o, runsd 6 F "F::normalize_bitor" [VArr a; VArr b] [] [VArr o; VArr (canon F b)] /\ tight F o /\
    value F o = Z.lor (value F a mod modulus F) (value F b mod modulus F).
Proof.
  intros H Na Nb. destruct (canon_canonical F a H) as [Ta _]. destruct (canon_canonical F b H) as [Tb _].
  destruct (bitor_runs F _ _ H Ta Tb) as (o & R & To & Vo).
  pose proof (nsbitor_step F a _ o H Na R) as R1. pose proof (normalize_normal F b H Nb) as R2.
  exists o. rewrite !canon_value in Vo by auto. split; auto.
  apply (call_step _ _ _ _ _ _ _ (same_nbitor F H)). intros md fuel Hf.
  unfold Src_e221_3.f_normalize_bitor. evm. callee R2. callee R1. reflexivity.
Qed.

(** masking words *)
Lemma zipw_mask n a b : List.length a = n -> zipw Z.land n a (repeat (mask_of b) n) = if b then a else repeat 0 n.
Proof.
  intros L. apply (nth_ext _ _ 0 0).
  - unfold zipw. rewrite map_length, seq_length. destruct b; auto. rewrite repeat_length. auto.
  - intros i Hi. unfold zipw in Hi. rewrite map_length, seq_length in Hi. rewrite zipw_nth by lia.
    assert (E : nth i (repeat (mask_of b) n) 0 = mask_of b).
    { apply (repeat_spec n). apply nth_In. rewrite repeat_length. lia. }
    rewrite E. destruct b; cbn [mask_of]; [apply Z.land_m1_r|]. rewrite Z.land_0_r. symmetry.
    apply (repeat_spec n). apply nth_In. rewrite repeat_length. lia.
Qed.
Lemma zipw_or_0_r n a : List.length a = n -> zipw Z.lor n a (repeat 0 n) = a.
Proof.
  intros L. apply (nth_ext _ _ 0 0).
  - unfold zipw. rewrite map_length, seq_length. auto.
  - intros i Hi. unfold zipw in Hi. rewrite map_length, seq_length in Hi. rewrite zipw_nth by lia.
    assert (E : nth i (repeat 0 n) 0 = 0). { apply (repeat_spec n). apply nth_In. rewrite repeat_length. lia. }
    rewrite E. apply Z.lor_0_r.
Qed.
Lemma zipw_or_0_l n a : List.length a = n -> zipw Z.lor n (repeat 0 n) a = a.
Proof.
  intros L. apply (nth_ext _ _ 0 0).
  - unfold zipw. rewrite map_length, seq_length. auto.
  - intros i Hi. unfold zipw in Hi. rewrite map_length, seq_length in Hi. rewrite zipw_nth by lia.
    assert (E : nth i (repeat 0 n) 0 = 0). { apply (repeat_spec n). apply nth_In. rewrite repeat_length. lia. }
    rewrite E. apply Z.lor_0_l.
Qed.

(** ** Loops *)
Section Loop.
  Variables (md : mode) (cl : string -> list val -> res (list val * list val)).
  Fixpoint loop_from (x : string) (body : list stmt) (n : nat) (i : Z) (en : env) : res env :=
    match n with
    | O => Ok en
    | S k => bind (exec_list md cl body (upd x (VInt i) en)) (loop_from x body k (i + 1))
    end.
  Lemma exec_for x lo hi body en a b : eval md lo en = Ok (VInt a) -> eval md hi en = Ok (VInt b) ->
    exec md cl (SFor x lo hi body) en = loop_from x body (Z.to_nat (b - a)) a en.
  Proof.
    intros Ha Hb. cbn [exec]. rewrite Ha, Hb. cbn [bind as_int].
    generalize (Z.to_nat (b - a)) as n. intros n. revert a en Ha Hb.
    assert (G : forall n a en, (fix loop (n : nat) (i : Z) (en : env) {struct n} : res env :=
        match n with
        | O => Ok en
        | S k => bind ((fix go (l : list stmt) (en : env) {struct l} : res env :=
            match l with [] => Ok en | s :: t => bind (exec md cl s en) (go t) end) body (upd x (VInt i) en)) (loop k (i + 1))
        end) n a en = loop_from x body n a en).
    { induction n0 as [|k IH]; intros a en; [reflexivity|]. cbn [loop_from]. rewrite (exec_list_eq md cl).
      destruct (exec_list md cl body (upd x (VInt a) en)); cbn [bind]; auto. }
    intros. apply G.
  Qed.
  Lemma loop_inv (I : Z -> env -> Prop) x body n : forall i en,
    (forall j en, i <= j < i + Z.of_nat n -> I j en -> exists en', exec_list md cl body (upd x (VInt j) en) = Ok en' /\ I (j + 1) en') ->
    I i en -> exists en', loop_from x body n i en = Ok en' /\ I (i + Z.of_nat n) en'.
  Proof.
    induction n as [|n IH]; intros i en H H0.
    - exists en. split; auto. replace (i + Z.of_nat 0) with i by lia. auto.
    - destruct (H i en ltac:(lia) H0) as (e1 & E1 & I1). cbn [loop_from]. rewrite E1. cbn [bind].
      destruct (IH (i + 1) e1) as (e2 & E2 & I2); auto.
      { intros j en' Hj. apply H. lia. }
      exists e2. split; auto. replace (i + Z.of_nat (S n)) with (i + 1 + Z.of_nat n) by lia. exact I2.
  Qed.
End Loop.

(** ** Random elements *)
Definition b_rand (F : fld) : func := mkfunc ["rng"]
  [SLet "out" (ERep (EInt 0) (fl_n F));
   SFor "i" (EInt 0) (EInt (Z.of_nat (fl_n F)))
     [SGenRange "%1" "rng" (EInt 0) (EIdx (ELit (lit F "F::modulus")) (EVar "i"));
      SSet "out" (EVar "i") (EVar "%1")]] [EVar "out"].
Lemma rand_body F : In F all_fields -> lookup "F::rand" (fl_tbl F) = Some (b_rand F).
Proof. intros H. by_field H. Qed.
Definition mword (F : fld) (i : nat) : Z := nth i (to_words F (modulus F)) 0.
Lemma mword_pos F i : In F all_fields -> (i < fl_n F)%nat -> 0 < mword F i.
Proof.
  intros H Hi. assert (forallb (fun F => forallb (fun i => 0 <? mword F i) (seq 0 (fl_n F))) all_fields = true) as C by (vm_compute; reflexivity).
  pose proof (all_chk _ C F H) as K. cbn beta in K. rewrite forallb_forall in K. apply Z.ltb_lt, K, in_seq. lia.
Qed.
Definition rand_words (F : fld) (ds : list Z) : list Z := map (fun i => nth i ds 0 mod mword F i) (seq 0 (fl_n F)).
Lemma rand_runs F ds : In F all_fields -> (fl_n F <= List.length ds)%nat ->
  runsd 1 F "F::rand" [VArr ds] [VArr (rand_words F ds)] [VArr (skipn (fl_n F) ds)].
Proof.
  intros H L. eapply body_runs; [apply rand_body, H|]. intros md cl.
  unfold run_func, b_rand. rewrite lit_modulus by auto. cbn [f_params f_body f_rets List.length Nat.eqb combine].
  assert (Lz : List.length (repeat 0 (fl_n F)) = fl_n F) by apply repeat_length.
  assert (Lm : List.length (to_words F (modulus F)) = fl_n F). { destruct (modulus_tight F H) as (X & _). exact X. }
  set (g := fun i => nth i ds 0 mod mword F i).
  destruct (loop_inv md cl (fun j en => exists k r, j = Z.of_nat k /\ en = ("rng", VArr (skipn k ds)) ::
      ("out", VArr (upto g k (repeat 0 (fl_n F)))) :: r /\ lookup "rng" r = None /\ (r = [] \/ exists v w, r = [("i", v); ("%1", w)])) "i"
     [SGenRange "%1" "rng" (EInt 0) (EIdx (ELit (to_words F (modulus F))) (EVar "i"));
      SSet "out" (EVar "i") (EVar "%1")] (fl_n F) 0 [("rng", VArr ds); ("out", VArr (repeat 0 (fl_n F)))])
    as (en' & E & k & r & Hk & -> & _ & Hr).
  - intros j en Hj (k & r & -> & -> & Hn & Hr).
    assert (Ek : znth (to_words F (modulus F)) (Z.of_nat k) = Some (mword F k)) by (apply znth_nth; lia).
    pose proof (mword_pos F k H ltac:(lia)) as Pk.
    assert (Ed : skipn k ds = nth k ds 0 :: skipn (S k) ds).
    { assert (k < List.length ds)%nat as Hkd by lia. clear -Hkd. revert k Hkd. induction ds as [|d ds IH]; intros [|k] Hk; simpl in *; try lia; auto. apply IH. lia. }
    exists (("rng", VArr (skipn (S k) ds)) :: ("out", VArr (upto g (S k) (repeat 0 (fl_n F)))) :: [("i", VInt (Z.of_nat k)); ("%1", VInt (g k))]).
    split.
    + destruct Hr as [->|(v & w & ->)]; evm; rewrite Ek; rewrite Ed;
        (destruct (Z.leb_spec (mword F k) 0); [lia|]); rewrite Z.add_0_l, Z.sub_0_r;
        fold (g k); rewrite (upto_step g) by lia; reflexivity.
    + exists (S k), [("i", VInt (Z.of_nat k)); ("%1", VInt (g k))]. split; [lia|]. split; auto. split; auto. right. eauto.
  - exists 0%nat, (@nil (string * val)). repeat split; auto.
  - cbn [exec_list].
    assert (E0 : exec md cl (SLet "out" (ERep (EInt 0) (fl_n F))) [("rng", VArr ds)] =
      Ok [("rng", VArr ds); ("out", VArr (repeat 0 (fl_n F)))]) by reflexivity.
    rewrite E0. cbn [bind].
    rewrite (exec_for md cl "i" (EInt 0) (EInt (Z.of_nat (fl_n F))) _ _ 0 (Z.of_nat (fl_n F))) by reflexivity.
    rewrite Z.sub_0_r, Nat2Z.id.
    assert (k = fl_n F) as -> by lia.
    rewrite E. cbn [bind].
    replace (upto g (fl_n F) (repeat 0 (fl_n F))) with (rand_words F ds).
    2:{ pose proof (upto_all g (repeat 0 (fl_n F))) as U. rewrite Lz in U. rewrite U. reflexivity. }
    reflexivity.
Qed.
Lemma rand_nth F ds i : (i < fl_n F)%nat -> nth i (rand_words F ds) 0 = nth i ds 0 mod mword F i.
Proof. intros H. unfold rand_words. rewrite nth_map_seq by auto. reflexivity. Qed.
Lemma words_value_le w a b : List.length a = List.length b -> 0 <= w ->
  (forall i, (i < List.length a)%nat -> nth i a 0 < nth i b 0) -> a <> [] -> words_value w a < words_value w b.
Proof.
  intros L Hw H N. assert (G : forall a b, List.length a = List.length b ->
    (forall i, (i < List.length a)%nat -> nth i a 0 < nth i b 0) -> words_value w a <= words_value w b).
  { assert (0 < 2 ^ w) by (apply Z.pow_pos_nonneg; lia).
    induction a0 as [|x a0 IH]; intros [|y b0] L0 Hx; [simpl; lia|discriminate|discriminate|cbn [words_value]].
    pose proof (Hx 0%nat ltac:(simpl; lia)). cbn [nth] in *. specialize (IH b0 ltac:(simpl in L0; lia) (fun i Hi => Hx (S i) ltac:(simpl; lia))). nia. }
  assert (0 < 2 ^ w) by (apply Z.pow_pos_nonneg; lia).
  destruct a as [|x a], b as [|y b]; try discriminate; [congruence|]. cbn [words_value].
  pose proof (H 0%nat ltac:(simpl; lia)). cbn [nth] in *.
  pose proof (G a b ltac:(simpl in L; lia) (fun i Hi => H (S i) ltac:(simpl; lia))). nia.
Qed.
Lemma rand_canonical F ds : In F all_fields -> canonical F (rand_words F ds).
Proof.
  intros H. pose proof (modulus_tight F H) as T. pose proof (tight_words F _ H T) as [Lm Wm].
  destruct (layout_facts F H) as (Ln & Lw & Lt & _).
  assert (Bd : forall i, (i < fl_n F)%nat -> 0 <= nth i (rand_words F ds) 0 < mword F i).
  { intros i Hi. rewrite rand_nth by auto. apply Z.mod_pos_bound, mword_pos; auto. }
  assert (Ll : List.length (rand_words F ds) = fl_n F) by (unfold rand_words; rewrite map_length, seq_length; auto).
  split; [split; [auto|split]|].
  - intros i Hi. specialize (Bd i ltac:(lia)). specialize (Wm i ltac:(lia)). unfold mword in *. lia.
  - unfold top. specialize (Bd (fl_n F - 1)%nat ltac:(lia)). destruct T as (_ & _ & T). unfold top, mword in *. lia.
  - replace (modulus F) with (value F (to_words F (modulus F))) by (apply to_words_value; auto).
    apply words_value_le; [congruence|lia| |].
    + intros i Hi. apply Bd. lia.
    + intros E. rewrite E in Ll. simpl in Ll. lia.
Qed.
(** exactly the arrays below the modulus word by word are drawn *)
Lemma rand_image F l : In F all_fields -> List.length l = fl_n F ->
  (exists ds, List.length ds = fl_n F /\ rand_words F ds = l) <-> (forall i, (i < fl_n F)%nat -> 0 <= nth i l 0 < mword F i).
Proof.
  intros H L. split.
  - intros (ds & _ & <-) i Hi. rewrite rand_nth by auto. apply Z.mod_pos_bound, mword_pos; auto.
  - intros Hl. exists l. split; auto. apply (nth_ext _ _ 0 0).
    + unfold rand_words. rewrite map_length, seq_length. auto.
    + intros i Hi. unfold rand_words in Hi. rewrite map_length, seq_length in Hi. rewrite rand_nth by auto.
      apply Z.mod_small. auto.
Qed.
