(** Debug formatting. *)
From Coq Require Import ZArith List String Lia Bool.
From Verif Require Import Lang Poly Kernel Fields Kfacts Ops Words Codec Normalize Methods Surface Forms Format TextSpec.
Import ListNotations.
Local Open Scope string_scope.
Local Open Scope Z_scope.

(** ** The digits *)
Lemma hex_digit_value up d : 0 <= d < 16 -> digit_value up (hex_digit up d) = Some d.
Proof.
  intros H. assert (K : forallb (fun u => forallb (fun i => match digit_value u (hex_digit u (Z.of_nat i)) with
    Some x => x =? Z.of_nat i | None => false end) (seq 0 16)) [true; false] = true) by reflexivity.
  rewrite forallb_forall in K. specialize (K up ltac:(destruct up; simpl; auto)). cbn beta in K.
  rewrite forallb_forall in K. specialize (K (Z.to_nat d)). rewrite in_seq, Z2Nat.id in K by lia. specialize (K ltac:(lia)).
  destruct (digit_value up (hex_digit up d)); [|discriminate]. apply Z.eqb_eq in K. congruence.
Qed.
Lemma hex_digits_value up n : forall z, 0 <= z < 16 ^ Z.of_nat n -> hex_value up (hex_digits up n z) = Some z.
Proof.
  induction n as [|n IH]; intros z Hz.
  - change (16 ^ Z.of_nat 0) with 1 in Hz. assert (z = 0) by lia. subst. reflexivity.
  - cbn [hex_digits]. rewrite Nat2Z.inj_succ, Z.pow_succ_r in Hz by lia.
    rewrite (hex_value_app up _ _ (z / 16)) by (apply IH; split; [apply Z.div_pos; lia|apply Z.div_lt_upper_bound; lia]).
    cbn [fold_left]. rewrite hex_digit_value by (apply Z.mod_pos_bound; lia). f_equal. pose proof (Z.div_mod z 16 ltac:(lia)). lia.
Qed.
Lemma hex_digits_len up n : forall z, List.length (hex_digits up n z) = n.
Proof. induction n as [|n IH]; intros z; [reflexivity|]. cbn [hex_digits]. rewrite app_length, IH. simpl. lia. Qed.
Lemma strip0_cons x t : strip0 (x :: t) = if (x =? 48) && negb (Nat.eqb (List.length t) 0) then strip0 t else x :: t.
Proof.
  destruct (Z.eqb_spec x 48) as [->|N]; [destruct t; reflexivity|]. cbn [andb].
  destruct x as [|p|p]; try reflexivity. do 6 (destruct p as [p|p|]; try reflexivity). congruence.
Qed.
Lemma strip0_value up l : hex_value up (strip0 l) = hex_value up l.
Proof.
  induction l as [|x t IH]; [reflexivity|]. rewrite strip0_cons. destruct (Z.eqb_spec x 48) as [->|N]; [|reflexivity].
  destruct t as [|y t]; [reflexivity|]. cbn [andb negb Nat.eqb List.length]. rewrite IH. destruct up; reflexivity.
Qed.
Lemma strip0_shape l : l <> [] -> strip0 l <> [] /\ (hd 48 (strip0 l) = 48 -> strip0 l = [48]).
Proof.
  induction l as [|x t IH]; [congruence|]. intros _. rewrite strip0_cons. destruct (Z.eqb_spec x 48) as [->|N].
  - destruct t as [|y t]; [split; [discriminate|reflexivity]|]. cbn [andb negb Nat.eqb List.length]. apply IH. discriminate.
  - cbn [andb]. split; [discriminate|]. intros E. simpl in E. congruence.
Qed.
Lemma word_hex z : writes_word z (hex_fmt false false 64 z).
Proof.
  unfold hex_fmt. change (Z.to_nat (64 / 4)) with 16%nat.
  destruct (strip0_shape (hex_digits false 16 (z mod 2 ^ 64))) as (A & B).
  { intros E. apply (f_equal (@List.length Z)) in E. rewrite hex_digits_len in E. discriminate. }
  repeat split; auto. rewrite strip0_value. apply hex_digits_value. change (16 ^ Z.of_nat 16) with (2 ^ 64). apply Z.mod_pos_bound. lia.
Qed.

(** ** The run *)
Definition dbg_step : list stmt :=
  [SPushStr "f" ", "; SPushHex "f" false false 64 (EIdx (EVar "self") (EVar "i"))].
Definition b_dbg (F : fld) (nm : string) : func := mkfunc ["self"; "f"]
  [SPushStr "f" (nm ++ ": [ "); SPushHex "f" false false 64 (EIdx (EVar "self") (EInt 0));
   SFor "i" (EInt 1) (EInt (Z.of_nat (fl_n F))) dbg_step; SPushStr "f" " ]"] [].
Lemma dbg_body F nm : In (F, nm) named_fields -> lookup "F::Debug::fmt" (fl_tbl F) = Some (b_dbg F nm).
Proof. intros H. repeat (destruct H as [H|H]; [injection H as <- <-; reflexivity|]). destruct H. Qed.
Lemma named F nm : In (F, nm) named_fields -> In F all_fields.
Proof. intros H. change all_fields with (map fst named_fields). apply (in_map fst) in H. exact H. Qed.

Definition dbg_tail (l : list Z) : list Z := flat_map (fun z => codes ", " ++ hex_fmt false false 64 z)%list l.
Lemma dbg_loop F md cl a n : In F all_fields -> List.length a = fl_n F -> forall i out, (1 <= i)%nat -> (i + n = fl_n F)%nat ->
  forall r, (r = [] \/ exists v, r = [("i", v)]) ->
  exists r', loop_from md cl "i" dbg_step n (Z.of_nat i) (("self", VArr a) :: ("f", VArr out) :: r) =
    Ok (("self", VArr a) :: ("f", VArr (out ++ dbg_tail (skipn i a))%list) :: r').
Proof.
  intros HF L. induction n as [|n IH]; intros i out Hi Hn r Hr.
  - exists r. cbn [loop_from]. rewrite skipn_all2 by lia. unfold dbg_tail. cbn [flat_map]. rewrite app_nil_r. reflexivity.
  - cbn [loop_from]. destruct (IH (S i) (out ++ codes ", " ++ hex_fmt false false 64 (nth i a 0))%list ltac:(lia) ltac:(lia)
      [("i", VInt (Z.of_nat i))] ltac:(eauto)) as (r' & E).
    exists r'. assert (S : skipn i a = nth i a 0 :: skipn (S i) a).
    { clear -L Hn. assert (H : (i < List.length a)%nat) by lia. clear L Hn. revert i H.
      induction a as [|x a IH]; intros [|i] H; simpl in *; try lia; auto. apply IH. lia. }
    rewrite S. unfold dbg_tail at 1. cbn [flat_map]. fold (dbg_tail (skipn (Datatypes.S i) a)).
    rewrite <- app_assoc in E. rewrite <- app_assoc.
    replace (Z.of_nat i + 1) with (Z.of_nat (Datatypes.S i)) by lia. rewrite <- app_assoc in E. rewrite <- E. clear E.
    unfold dbg_step. destruct Hr as [->|(v & ->)]; evm; rewrite znth_nth by lia; rewrite <- ?app_assoc; reflexivity.
Qed.
Lemma joined_tail x l : joined (codes ", ") (map (hex_fmt false false 64) (x :: l)) = (hex_fmt false false 64 x ++ dbg_tail l)%list.
Proof.
  revert x. induction l as [|y l IH]; intros x; [cbn [map joined dbg_tail flat_map]; rewrite app_nil_r; reflexivity|].
  change (joined (codes ", ") (map (hex_fmt false false 64) (x :: y :: l))) with
    (hex_fmt false false 64 x ++ codes ", " ++ joined (codes ", ") (map (hex_fmt false false 64) (y :: l)))%list.
  rewrite IH. unfold dbg_tail. cbn [flat_map]. rewrite <- app_assoc. reflexivity.
Qed.
Definition dbg_text (nm : string) (a : list Z) : list Z :=
  (codes (nm ++ ": [ ") ++ joined (codes ", ") (map (hex_fmt false false 64) a) ++ codes " ]")%list.
Lemma dbg_runs F nm a out : In (F, nm) named_fields -> List.length a = fl_n F ->
  runsd 1 F "F::Debug::fmt" [VArr a; VArr out] [] [VArr a; VArr (out ++ dbg_text nm a)%list].
Proof.
  intros H L. pose proof (named F nm H) as HF.
  apply (call_step _ _ _ _ _ _ _ (dbg_body F nm H)). intros md fuel _.
  assert (Hn : (1 <= fl_n F)%nat). { clear -HF. repeat (destruct HF as [<-|HF]; [simpl; lia|]). destruct HF. }
  destruct a as [|x a]; [simpl in L; lia|].
  set (o1 := ((out ++ codes (nm ++ ": [ ")) ++ hex_fmt false false 64 x)%list).
  destruct (dbg_loop F md (call md no_base (fl_tbl F) fuel) (x :: a) (fl_n F - 1) HF L 1 o1 ltac:(lia) ltac:(lia) [] ltac:(auto)) as (r' & E).
  unfold run_func, b_dbg. cbn [f_params f_body f_rets List.length Nat.eqb combine exec_list].
  assert (E0 : exec md (call md no_base (fl_tbl F) fuel) (SPushStr "f" (nm ++ ": [ ")) [("self", VArr (x :: a)); ("f", VArr out)] =
    Ok [("self", VArr (x :: a)); ("f", VArr (out ++ codes (nm ++ ": [ "))%list)]) by reflexivity.
  rewrite E0. cbn [bind].
  assert (E1 : exec md (call md no_base (fl_tbl F) fuel) (SPushHex "f" false false 64 (EIdx (EVar "self") (EInt 0)))
    [("self", VArr (x :: a)); ("f", VArr (out ++ codes (nm ++ ": [ "))%list)] = Ok [("self", VArr (x :: a)); ("f", VArr o1)]) by reflexivity.
  rewrite E1. cbn [bind].
  rewrite (exec_for _ _ _ _ _ _ _ 1 (Z.of_nat (fl_n F))) by reflexivity.
  replace (Z.to_nat (Z.of_nat (fl_n F) - 1)) with (fl_n F - 1)%nat by lia.
  change 1 with (Z.of_nat 1) at 1. rewrite E. cbn [bind].
  cbn [exec get gets lookup String.eqb Ascii.eqb Bool.eqb bind as_arr upd map fst snd].
  cbn [write_back].
  unfold dbg_text. rewrite joined_tail. subst o1. cbn [skipn]. rewrite <- !app_assoc. reflexivity.
Qed.

(** ** Reading it back *)
Lemma hex_chars s : (exists n, hex_value false s = Some n) -> ~ In 44 s /\ ~ In 32 s.
Proof.
  intros (n & H). assert (G : forall s acc, (exists n, fold_left (fun acc c => match acc, digit_value false c with
    | Some n, Some d => Some (16 * n + d) | _, _ => None end) s acc = Some n) -> ~ In 44 s /\ ~ In 32 s).
  { clear. induction s as [|c s IH]; intros acc (n & H); [simpl; tauto|]. cbn [fold_left] in H.
    assert (Z0 : forall t, fold_left (fun acc c => match acc, digit_value false c with
      | Some n, Some d => Some (16 * n + d) | _, _ => None end) t None = None) by (induction t; auto).
    destruct acc as [m|]; [|rewrite Z0 in H; discriminate].
    destruct (digit_value false c) as [d|] eqn:D; [|rewrite Z0 in H; discriminate].
    destruct (IH _ (ex_intro _ n H)) as (A & B).
    split; intros [->|I]; auto; vm_compute in D; discriminate. }
  apply (G s (Some 0)). exists n. exact H.
Qed.
Lemma cut (c : Z) s1 s2 t1 t2 : ~ In c s1 -> ~ In c s2 -> (s1 ++ c :: t1 = s2 ++ c :: t2)%list -> s1 = s2 /\ t1 = t2.
Proof.
  revert s2. induction s1 as [|x s1 IH]; intros [|y s2] N1 N2 E; simpl in E.
  - injection E. auto.
  - injection E as -> _. exfalso. apply N2. left. reflexivity.
  - injection E as <- _. exfalso. apply N1. left. reflexivity.
  - injection E as <- E. destruct (IH s2) as (-> & ->); auto; intros I; [apply N1|apply N2]; right; exact I.
Qed.
Lemma fmt_inj x y : - 2 ^ 63 <= x < 2 ^ 63 -> - 2 ^ 63 <= y < 2 ^ 63 -> hex_fmt false false 64 x = hex_fmt false false 64 y -> x = y.
Proof.
  intros Hx Hy E. destruct (word_hex x) as (A & _), (word_hex y) as (B & _). rewrite E, B in A. injection A as A.
  pose proof (Z.div_mod x (2 ^ 64) ltac:(discriminate)). pose proof (Z.div_mod y (2 ^ 64) ltac:(discriminate)). nia.
Qed.
Lemma joined_inj a : forall b t1 t2, List.length a = List.length b -> (0 < List.length a)%nat ->
  Forall (fun z => - 2 ^ 63 <= z < 2 ^ 63) a -> Forall (fun z => - 2 ^ 63 <= z < 2 ^ 63) b ->
  (joined (codes ", ") (map (hex_fmt false false 64) a) ++ 32 :: t1 = joined (codes ", ") (map (hex_fmt false false 64) b) ++ 32 :: t2)%list -> a = b.
Proof.
  assert (N : forall z, ~ In 44 (hex_fmt false false 64 z) /\ ~ In 32 (hex_fmt false false 64 z)).
  { intros z. apply hex_chars. exists (z mod 2 ^ 64). apply word_hex. }
  induction a as [|x a IH]; intros [|y b] t1 t2 L P A B E; simpl in L, P; try lia.
  inversion_clear A. inversion_clear B. rewrite !joined_tail in E.
  destruct a as [|x' a], b as [|y' b]; simpl in L; try lia.
  - cbn [dbg_tail flat_map] in E. rewrite !app_nil_r in E. apply cut in E; try apply N. destruct E as (E & _). f_equal. apply fmt_inj; auto.
  - assert (T : forall z l, dbg_tail (z :: l) = (44 :: 32 :: joined (codes ", ") (map (hex_fmt false false 64) (z :: l)))%list).
    { intros. rewrite joined_tail. unfold dbg_tail. cbn [flat_map]. rewrite <- app_assoc. reflexivity. }
    rewrite !T, <- !app_assoc in E. cbn [app] in E. apply cut in E; try apply N. destruct E as (E & E2). injection E2 as E2.
    f_equal; [apply fmt_inj; auto|]. apply (IH (y' :: b) t1 t2); auto; simpl; lia.
Qed.

Lemma debug_claim F nm a out : In (F, nm) named_fields -> is_i64s F a ->
  exists ws, runs F "F::Debug::fmt" [VArr a; VArr out] []
    [VArr a; VArr (out ++ codes (nm ++ ": [ ") ++ joined (codes ", ") ws ++ codes " ]")%list] /\ Forall2 writes_word a ws.
Proof.
  intros H (L & _). exists (map (hex_fmt false false 64) a). split.
  - intros md. apply (dbg_runs F nm a out H L). lia.
  - clear. induction a; cbn [map]; constructor; auto. apply word_hex.
Qed.
Lemma debug_inj_claim F a b out a' b' s : In F all_fields -> is_i64s F a -> is_i64s F b ->
  runs F "F::Debug::fmt" [VArr a; VArr out] [] [VArr a'; s] -> runs F "F::Debug::fmt" [VArr b; VArr out] [] [VArr b'; s] -> a = b.
Proof.
  intros HF (La & Fa) (Lb & Fb) Ra Rb.
  assert (exists nm, In (F, nm) named_fields) as (nm & H).
  { change all_fields with (map fst named_fields) in HF. apply in_map_iff in HF. destruct HF as ((F', nm) & <- & I). exists nm. exact I. }
  specialize (Ra Debug). specialize (Rb Debug).
  unfold rust_call in Ra, Rb. rewrite (dbg_runs F nm a out H La) in Ra by lia. rewrite (dbg_runs F nm b out H Lb) in Rb by lia.
  injection Ra as <- <-. injection Rb as _ E. apply app_inv_head in E. unfold dbg_text in E. apply app_inv_head in E.
  symmetry in E. change (codes " ]") with [32; 93] in E.
  assert (Hn : (1 <= fl_n F)%nat). { clear -HF. repeat (destruct HF as [<-|HF]; [simpl; lia|]). destruct HF. }
  apply joined_inj in E; auto; lia.
Qed.
