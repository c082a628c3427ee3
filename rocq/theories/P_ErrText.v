(** C125: the texts of errors of access to values and of checks. *)
From Coq Require Import Lia.
From Verif Require Import Base Value Text M_Values M_ErrText S_Value S_Containers S_ErrText L_Base L_Text L_Registry P_Values L_ErrText.

(** [checkItems] of a format of the documented letters: no error exactly if it succeeds; of a wrong number of items the text says how many
    there must be; else it names the first item that has not the type asked for, the type asked for and the type found.  The number said is the
    number of the item plus the number of '?' before it. *)
Theorem C125_items_partial : forall f l, zlen f < 2 ^ 29 -> zlen l < 2 ^ 29 ->
  match check_text (format_text f) l with
  | None => check_items (format_text f) l = Ok tt
  | Some t =>
      (zlen l <> zlen f /\ t = str "Array must have " ++ dec (zlen f) ++ str " parameters.") \/
      (exists f1 a q f2 l1 v l2, f = f1 ++ (a, q) :: f2 /\ l = l1 ++ v :: l2 /\ Forall2 item_ok f1 l1 /\ ~ item_ok (a, q) v /\
        t = says_parameter (zlen l1 + 1 + nullable f1) (called a) (type_name v))
  end.
Proof.
  intros f l F L. pose proof (zlen_nonneg _ f). pose proof (zlen_nonneg _ l). unfold check_text. rewrite format_count. destruct (zlen l =? zlen f) eqn:E.
  - apply Z.eqb_eq in E. pose proof (loop_text f l 0 ltac:(lia) ltac:(lia) ltac:(lia)) as T.
    destruct (check_loop_text 0 (format_text f) l) as [t|].
    + right. destruct T as (f1 & a & q & f2 & l1 & v & l2 & E1 & E2 & F2 & K & T). exists f1, a, q, f2, l1, v, l2. repeat (split; [assumption|]). rewrite T. f_equal.
      apply pairs_length in F2. unfold zlen. lia.
    + apply C24_check_items. exact T.
  - left. apply Z.eqb_neq in E. split; [exact E|]. rewrite formatted_short.
    + cbn [List.concat]. unfold zd. destruct (s64_range (zlen f) ltac:(lia)) as [(A & ->)|(A & _)]; [|lia]. unfold dec_signed.
      assert (X: zlen f <? 0 = false) by (apply Z.ltb_ge; lia). rewrite X. reflexivity.
    + pose proof (zd_len (zlen f) ltac:(lia)). cbn [List.concat]. rewrite !zlen_app, zlen_nil. change (zlen (str "Array must have ")) with 16. change (zlen (str " parameters.")) with 12. lia.
Qed.
Print Assumptions C125_items_partial.
(** There is a text exactly if [checkItems] throws. *)
Theorem C125_items_told : forall items l, check_text items l = None <-> check_items items l = Ok tt.
Proof.
  intros items l. pose proof (C24_any_format_safe items l) as S. unfold check_text, check_items in *. destruct (zlen l =? _); [|split; discriminate].
  apply loop_same. exact S.
Qed.
Print Assumptions C125_items_told.
(** Refuted: after a letter that allows null the number said is not that of the item. *)
Theorem C125_number_refuted : forall f1 l1 a q v t, zlen f1 < 2 ^ 28 -> nullable f1 > 0 -> Forall2 item_ok f1 l1 -> ~ item_ok (a, q) v ->
  check_text (format_text (f1 ++ [(a, q)])) (l1 ++ [v]) = Some t ->
  t = says_parameter (zlen l1 + 1 + nullable f1) (called a) (type_name v) /\ t <> says_parameter (zlen l1 + 1) (called a) (type_name v).
Proof.
  intros f1 l1 a q v t B N F K T. pose proof (zlen_nonneg _ f1). assert (E: zlen l1 = zlen f1) by (apply pairs_length in F; unfold zlen; lia).
  assert (ZF: zlen (f1 ++ [(a, q)]) = zlen f1 + 1) by (rewrite zlen_app, zlen_cons, zlen_nil; lia).
  assert (ZL: zlen (l1 ++ [v]) = zlen f1 + 1) by (rewrite zlen_app, zlen_cons, zlen_nil; lia).
  pose proof (C125_items_partial (f1 ++ [(a, q)]) (l1 ++ [v]) ltac:(lia) ltac:(lia)) as P. rewrite T in P.
  destruct P as [(X & _)|(g1 & b & p & g2 & m1 & w & m2 & E1 & E2 & F2 & K2 & T2)]; [lia|].
  assert (G: g1 = f1 /\ b = a /\ p = q /\ m1 = l1 /\ w = v).
  { apply (first_bad f1 l1 a q v g1 b p g2 m1 w m2); assumption. }
  destruct G as (-> & -> & -> & -> & ->). split; [exact T2|]. rewrite T2. intro X. unfold says_parameter in X. apply app_inv_head in X. apply app_inv_tail in X.
  apply dec_inj in X; unfold nullable in *; lia.
Qed.
Print Assumptions C125_number_refuted.

(** Elements of arrays: found exactly if the index is less than the size.  Else the text names index and size; it determines both. *)
Theorem C125_index_partial : forall l i, 0 <= i < 2 ^ 64 -> zlen l < 2 ^ 63 ->
  match element (VArray l) i with
  | inl x => nth_error l (Z.to_nat i) = Some x
  | inr t => zlen l <= i /\ t = says_range (if i <? 2 ^ 63 then i else i - 2 ^ 64) (zlen l)
  end.
Proof.
  intros l i I L. pose proof (zlen_nonneg _ l). unfold element. destruct (i <? zlen l) eqn:E.
  - apply Z.ltb_lt in E. destruct (nth_error l (Z.to_nat i)) eqn:N; [reflexivity|]. apply nth_error_None in N. unfold zlen in E. lia.
  - apply Z.ltb_ge in E. split; [exact E|]. rewrite index_exact by lia. destruct (s64_range (zlen l) ltac:(lia)) as [(A & ->)|(A & _)]; [|lia].
    destruct (s64_range i I) as [(B & ->)|(B & ->)]; [assert (X: i <? 2 ^ 63 = true) by (apply Z.ltb_lt; lia)|assert (X: i <? 2 ^ 63 = false) by (apply Z.ltb_ge; lia)]; rewrite X; reflexivity.
Qed.
Print Assumptions C125_index_partial.
Theorem C125_index_told : forall i n i' n', 0 <= i < 2 ^ 64 -> 0 <= n < 2 ^ 64 -> 0 <= i' < 2 ^ 64 -> 0 <= n' < 2 ^ 64 ->
  index_text i n = index_text i' n' -> i = i' /\ n = n'.
Proof. intros i n i' n' A B C D E. rewrite !index_exact in E by assumption. apply range_inj in E. destruct E as (X & Y). split; apply s64_inj; assumption. Qed.
Print Assumptions C125_index_told.
(** Refuted: the range said includes the size, which is refused. *)
Theorem C125_range_refuted : forall l, zlen l < 2 ^ 63 -> element (VArray l) (zlen l) = inr (says_range (zlen l) (zlen l)).
Proof.
  intros l L. pose proof (zlen_nonneg _ l). pose proof (C125_index_partial l (zlen l) ltac:(lia) L) as P. destruct (element (VArray l) (zlen l)) as [x|t] eqn:E.
  - unfold element in E. rewrite Z.ltb_irrefl in E. discriminate.
  - destruct P as (_ & ->). assert (X: zlen l <? 2 ^ 63 = true) by (apply Z.ltb_lt; lia). rewrite X. reflexivity.
Qed.
Print Assumptions C125_range_refuted.

(** Members of structs: the text for a key without NUL of up to 1001 bytes names it, so that the key can be told. *)
Theorem C125_key_partial : forall m k, ~ In x00 k -> zlen k <= 1001 ->
  match member (VStruct m) k with
  | inl x => exists k', In (k', x) m /\ k' = k
  | inr t => (forall x, ~ In (k, x) m) /\ t = says_key k
  end.
Proof.
  intros m k N L. cbn [member]. destruct (find_member k m) as [x|] eqn:E.
  - exists k. split; [apply find_in, E|reflexivity].
  - split; [intro x; apply find_none, E|apply key_exact; assumption].
Qed.
Print Assumptions C125_key_partial.
Theorem C125_key_told : forall k k', ~ In x00 k -> ~ In x00 k' -> zlen k <= 1001 -> zlen k' <= 1001 -> key_text k = key_text k' -> k = k'.
Proof. intros k k' A B C D E. rewrite !key_exact in E by assumption. apply says_key_inj, E. Qed.
Print Assumptions C125_key_told.
(** Refuted: keys that begin with the same 1018 bytes, or are the same up to a NUL, have the same text. *)
Theorem C125_key_refuted :
  (forall k a b, ~ In x00 (k ++ a ++ b) -> 1018 <= zlen k -> key_text (k ++ a) = key_text (k ++ b)) /\
  (forall k a, ~ In x00 k -> key_text (k ++ x00 :: a) = key_text k).
Proof.
  split.
  - intros k a b N L. rewrite !key_long; auto; intro X; apply N; apply in_or_app; auto; right; apply in_or_app; auto.
  - intros k a N. unfold key_text. rewrite c_str_nul, c_str_same by assumption. reflexivity.
Qed.
Print Assumptions C125_key_refuted.

(** Access to a value that is no array or struct, and conversions: the text tells its type. *)
Theorem C125_type_told : forall v w what, zlen what <= 100 ->
  (operator_text v what = operator_text w what -> type_tag v = type_tag w) /\ (retype_text v what = retype_text w what -> type_tag v = type_tag w).
Proof.
  intros v w what L. assert (T: forall v, zlen (type_name v) <= 12) by (intros []; vm_compute; discriminate). pose proof (T v). pose proof (T w).
  assert (N: type_name v = type_name w -> type_tag v = type_tag w) by (destruct v, w; cbn; intro E; try reflexivity; discriminate E).
  split; intro E; apply N.
  - unfold operator_text in E. rewrite !formatted_short in E by (cbn [List.concat]; rewrite !zlen_app, zlen_nil; change (zlen (str "Type of object is ")) with 18; change (zlen (str " but ")) with 5; change (zlen (str " operator used.")) with 15; lia).
    cbn [List.concat] in E. apply app_inv_head in E. apply app_inv_tail in E. exact E.
  - unfold retype_text in E. rewrite !formatted_short in E by (cbn [List.concat]; rewrite !zlen_app, zlen_nil; change (zlen (str "Type is ")) with 8; change (zlen (str " but not ")) with 9; lia).
    cbn [List.concat] in E. apply app_inv_head in E. apply app_inv_tail in E. exact E.
Qed.
Print Assumptions C125_type_told.

(** Not vacuous. *)
Example C125_number_ex : check_text (format_text [(L_int, true); (L_string, false)]) [VInt 1; VInt 2] = Some (str "Parameter 3 must be string not int.") /\
  check_text (str "is") [VInt 1; VInt 2] = Some (str "Parameter 2 must be string not int.") /\ check_text (str "is") [VInt 1] = Some (str "Array must have 2 parameters.") /\
  check_text (str "i?s") [VNull; VString []] = None.
Proof. repeat split. Qed.
Example C125_index_ex : element (VArray [VNull]) 1 = inr (str "index 1 is out of range 0 - 1.") /\ element (VArray []) (2 ^ 64 - 1) = inr (str "index -1 is out of range 0 - 0.") /\
  element (VInt 3) 0 = inr (str "Type of object is int but array operator used.") /\ element (VArray [VNull]) 0 = inl VNull.
Proof. repeat split. Qed.
Example C125_key_ex : member (VStruct [(str "a", VNull)]) (str "b") = inr (str "Key ""b"" does not exist.") /\ member (VStruct [(str "a", VNull)]) (str "a") = inl VNull /\
  ~ In x00 (repeat x61 1018 ++ str "b" ++ str "c") /\ retype_text (VSecret VNull) (str "int") = str "Type is secret_value but not int".
Proof.
  repeat split. intro H. apply in_app_or in H. destruct H as [H|H]; [apply repeat_spec in H; discriminate|]. cbn in H. repeat destruct H as [H|H]; try discriminate H. destruct H.
Qed.
