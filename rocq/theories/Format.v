(** Hexadecimal and debug formatting. *)
From Coq Require Import ZArith List String Lia Bool.
From Verif Require Import Lang Poly Kernel Fields Kfacts Ops Words Codec Normalize Methods Surface.
Import ListNotations.
Local Open Scope string_scope.
Local Open Scope Z_scope.

Definition hex_step (F : fld) (up : bool) : list stmt :=
  [SPushHex "f" up true 8 (EIdx (EVar "bytes") (EUSub (EInt (Z.of_nat (fl_nb F - 1))) (EVar "i")))].
Definition b_hex (F : fld) (up : bool) : func := mkfunc ["self"; "f"]
  [SLet "cpy" (EVar "self"); SCall ["bytes"] "F::packed" [AMut "cpy"];
   SFor "i" (EInt 0) (EInt (Z.of_nat (fl_nb F))) (hex_step F up)] [].
Definition hexname (up : bool) : string := if up then "F::UpperHex::fmt" else "F::LowerHex::fmt".
Lemma hex_body F up : In F all_fields -> lookup (hexname up) (fl_tbl F) = Some (b_hex F up).
Proof. intros H. destruct up; by_field H. Qed.

Definition hex_text (up : bool) (bs : list Z) : list Z := flat_map (hex_fmt up true 8) bs.
Lemma rev_skipn_step (bs : list Z) k : (k < List.length bs)%nat ->
  firstn (S k) (rev bs) = (firstn k (rev bs) ++ [nth (List.length bs - 1 - k) bs 0])%list.
Proof.
  intros H. assert (nth k (rev bs) 0 = nth (List.length bs - 1 - k) bs 0) as <-.
  { rewrite rev_nth by auto. f_equal. lia. }
  assert (k < List.length (rev bs))%nat as Hk by (rewrite rev_length; auto). clear H. revert Hk. generalize (rev bs) as l. intros l.
  revert k. induction l as [|x l IH]; intros [|k] Hk; simpl in Hk; try lia; cbn [firstn app nth]; auto.
  rewrite <- IH by lia. reflexivity.
Qed.
Lemma nb_small F : In F all_fields -> (0 < fl_nb F <= 66)%nat.
Proof. intros H. repeat (destruct H as [<-|H]; [simpl; lia|]); destruct H. Qed.
Lemma hex_loop F up md cl bs a c out n : In F all_fields -> List.length bs = fl_nb F -> forall i, (i + n = fl_nb F)%nat ->
  forall r, (r = [] \/ exists v, r = [("i", v)]) ->
  exists r', loop_from md cl "i" (hex_step F up) n (Z.of_nat i)
    (("self", VArr a) :: ("f", VArr (out ++ hex_text up (firstn i (rev bs)))%list) :: ("cpy", c) :: ("bytes", VArr bs) :: r) =
  Ok (("self", VArr a) :: ("f", VArr (out ++ hex_text up (rev bs))%list) :: ("cpy", c) :: ("bytes", VArr bs) :: r').
Proof.
  intros HF L. pose proof (nb_small F HF) as Hs. induction n as [|n IH]; intros i Hi r Hr.
  - exists r. cbn [loop_from]. rewrite firstn_all2 by (rewrite rev_length; lia). reflexivity.
  - cbn [loop_from].
    assert (U : uarith md (Z.of_nat (fl_nb F - 1) - Z.of_nat i) = Ok (Z.of_nat (fl_nb F - 1 - i))).
    { unfold uarith. destruct (Z.leb_spec 0 (Z.of_nat (fl_nb F - 1) - Z.of_nat i)); [|lia].
      destruct (Z.ltb_spec (Z.of_nat (fl_nb F - 1) - Z.of_nat i) (2 ^ 64)); [|lia]. cbn [andb]. f_equal. lia. }
    pose proof (rev_skipn_step bs i ltac:(lia)) as RS. rewrite L in RS.
    destruct (IH (S i) ltac:(lia) [("i", VInt (Z.of_nat i))] ltac:(eauto)) as (r' & E).
    exists r'. rewrite <- E. replace (Z.of_nat i + 1) with (Z.of_nat (S i)) by lia.
    rewrite RS. unfold hex_text at 2. rewrite flat_map_app. cbn [flat_map]. rewrite app_nil_r, app_assoc.
    unfold hex_step. destruct Hr as [->|(v & ->)]; evm; rewrite U; rewrite znth_nth by lia; reflexivity.
Qed.
Lemma hex_runs F up a out : In F all_fields -> normal F a ->
  runsd 7 F (hexname up) [VArr a; VArr out] [] [VArr a; VArr (out ++ hex_text up (rev (encode F (value F a))))%list].
Proof.
  intros H N. pose proof (packed_runs F a H N) as R.
  apply (call_step _ _ _ _ _ _ _ (hex_body F up H)). intros md fuel Hf.
  unfold run_func, b_hex. cbn [f_params f_body f_rets List.length Nat.eqb combine exec_list].
  destruct (hex_loop F up md (call md no_base (fl_tbl F) fuel) (encode F (value F a)) a (VArr (canon F a)) out (fl_nb F) H
    (encode_len F _) 0 eq_refl [] ltac:(auto)) as (r' & E).
  cbn [firstn hex_text flat_map] in E. rewrite app_nil_r in E.
  assert (E0 : exec md (call md no_base (fl_tbl F) fuel) (SLet "cpy" (EVar "self")) [("self", VArr a); ("f", VArr out)] =
    Ok [("self", VArr a); ("f", VArr out); ("cpy", VArr a)]) by reflexivity.
  rewrite E0. cbn [bind].
  assert (E1 : exec md (call md no_base (fl_tbl F) fuel) (SCall ["bytes"] "F::packed" [AMut "cpy"]) [("self", VArr a); ("f", VArr out); ("cpy", VArr a)] =
    Ok [("self", VArr a); ("f", VArr out); ("cpy", VArr (canon F a)); ("bytes", VArr (encode F (value F a)))]).
  { evm. rewrite R by lia. reflexivity. }
  rewrite E1. cbn [bind].
  rewrite (exec_for _ _ _ _ _ _ _ 0 (Z.of_nat (fl_nb F))) by reflexivity.
  rewrite Z.sub_0_r, Nat2Z.id. change (Z.of_nat 0) with 0 in E. rewrite E. reflexivity.
Qed.

(** every byte is printed as two digits that read back as the byte *)
Definition byte_ok (up : bool) (b : Z) : bool :=
  match hex_fmt up true 8 b with
  | [c; d] => match digit_value up c, digit_value up d with Some x, Some y => 16 * x + y =? b | _, _ => false end
  | _ => false
  end.
Lemma bytes_checked : forallb (fun up => forallb (fun i => byte_ok up (Z.of_nat i)) (seq 0 256)) [true; false] = true.
Proof. vm_cast_no_check (eq_refl true). Qed.
Lemma byte_hex up b : 0 <= b < 256 -> exists c d x y, hex_fmt up true 8 b = [c; d] /\ digit_value up c = Some x /\
  digit_value up d = Some y /\ 16 * x + y = b.
Proof.
  intros Hb. pose proof (proj1 (forallb_forall _ _) bytes_checked up) as K.
  assert (In up [true; false]) as I by (destruct up; simpl; auto). specialize (K I). cbn beta in K.
  rewrite forallb_forall in K. specialize (K (Z.to_nat b)). rewrite in_seq in K. specialize (K ltac:(lia)).
  rewrite Z2Nat.id in K by lia. unfold byte_ok in K.
  destruct (hex_fmt up true 8 b) as [|c [|d [|]]]; try discriminate.
  destruct (digit_value up c) as [x|] eqn:Ex; try discriminate. destruct (digit_value up d) as [y|] eqn:Ey; try discriminate.
  apply Z.eqb_eq in K. exists c, d, x, y. auto.
Qed.
Lemma hex_text_len up bs : is_bytes bs -> List.length (hex_text up bs) = (2 * List.length bs)%nat.
Proof.
  induction 1 as [|b bs Hb Hbs IH]; [reflexivity|]. unfold hex_text in *. cbn [flat_map].
  destruct (byte_hex up b Hb) as (c & d & _ & _ & E & _). rewrite E. simpl. lia.
Qed.
Lemma hex_value_app up s t n : hex_value up s = Some n ->
  hex_value up (s ++ t) = fold_left (fun acc c => match acc, digit_value up c with
                          | Some n, Some d => Some (16 * n + d) | _, _ => None end) t (Some n).
Proof. unfold hex_value. intros H. rewrite fold_left_app, H. reflexivity. Qed.
Lemma hex_text_value up bs : is_bytes bs -> hex_value up (hex_text up (rev bs)) = Some (le_value bs).
Proof.
  induction 1 as [|b bs Hb Hbs IH]; [reflexivity|]. cbn [rev]. unfold hex_text in *. rewrite flat_map_app.
  rewrite (hex_value_app up _ _ _ IH). cbn [flat_map]. rewrite app_nil_r.
  destruct (byte_hex up b Hb) as (c & d & x & y & -> & Ex & Ey & E). cbn [fold_left]. rewrite Ex, Ey. f_equal.
  unfold le_value. cbn [words_value]. change (2 ^ 8) with 256. lia.
Qed.
Lemma rev_bytes bs : is_bytes bs -> is_bytes (rev bs).
Proof. intros H. unfold is_bytes in *. rewrite Forall_forall in *. intros x Hx. apply H, in_rev, Hx. Qed.
Lemma hex_ok F up a out : In F all_fields -> normal F a ->
  exists s, runsd 7 F (hexname up) [VArr a; VArr out] [] [VArr a; VArr (out ++ s)%list] /\
    List.length s = (2 * fl_nb F)%nat /\ hex_value up s = Some (value F a mod modulus F).
Proof.
  intros H N. exists (hex_text up (rev (encode F (value F a)))). split; [apply hex_runs; auto|]. split.
  - rewrite hex_text_len, rev_length, encode_len; auto. apply rev_bytes, encode_bytes.
  - rewrite hex_text_value by apply encode_bytes. rewrite encode_value by auto. reflexivity.
Qed.
