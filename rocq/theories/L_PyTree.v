(** Lemmas for P_PyTree.v. *)
From Coq Require Import Lia ZifyBool.
From Verif Require Import Base Value Text Unicode M_Marshal M_BinUnmarshal M_TreeBuilder M_Dump M_Python M_PyClient M_PyDate M_PyTree S_Python S_PyTree
  L_Base L_JsText L_PyText L_Python L_PyRead L_PyDumps S_Xml L_Xml L_Xml2 L_Xml3 L_PyDate.

Lemma utf8_nul : forall u, Forall uchar u -> ~ In 0 u -> ~ In x00 (flat_map utf8_char u).
Proof.
  intros u F N I. apply in_flat_map in I as (c & C & I). rewrite Forall_forall in F. specialize (F c C).
  assert (c <> 0) by (intros ->; contradiction). assert (R: 0 < c < 1114112) by (unfold uchar in F; lia). clear C N F.
  assert (Z0: forall z, z2b z = x00 -> z mod 256 = 0) by (intros z E; rewrite <- b2z_z2b, E; reflexivity).
  unfold utf8_char in I. destruct (Z.ltb_spec c 128); [|destruct (Z.ltb_spec c 2048); [|destruct (Z.ltb_spec c 65536)]]; cbn [In] in I;
    repeat match goal with H: _ \/ _ |- _ => destruct H as [H|H] | H: False |- _ => contradiction end; apply Z0 in I;
    Z.to_euclidean_division_equations; lia.
Qed.

Section Tree.
  Variable show : Z -> bytes.
  Variable repr : py -> option pystr.
  Variable type_name : py -> bytes.
  Variable bytes_text : bytes -> option pystr.
  Variable names : option py.
  Notation dmp := (dump show repr type_name bytes_text names).

  Lemma secret_hidden : forall k, secret names k -> has_name names k = true.
  Proof.
    intros k (u & m & -> & -> & I & F & N). unfold has_name, key_name. rewrite (encode_xml u F).
    rewrite (c_string_id _ (utf8_nul u F N)), (decode_same false _ u (conj F eq_refl)). apply existsb_exists.
    apply in_map_iff in I as ((k & v) & E & I). cbn [fst] in E. subst k. exists (PyStr u, v). split; [exact I|]. cbn [fst]. apply pystr_eqb_spec. reflexivity.
  Qed.

  (** The loops of [dump]. *)
  Definition items (level pos : Z) : Z -> list py -> bool -> bytes * bool * bool :=
    fix items (i : Z) (l : list py) (p : bool) :=
      match l with
      | [] => ([], true, p)
      | x :: r =>
          let sep := if i =? 0 then [] else str ", " in
          if (i <? 64) && Z.testbit pos i then
            let '(t, ok, p) := items (i + 1) r p in (sep ++ str "-hidden-" ++ t, ok, p)
          else
            let '(t, ok, p) := dmp (level - 1) 0 x p in
            if ok then let '(t2, ok, p) := items (i + 1) r p in (sep ++ t ++ t2, ok, p) else (sep ++ t, false, p)
      end.
  Definition members (level : Z) : bool -> list (py * py) -> bool -> bytes * bool * bool :=
    fix members (other : bool) (m : list (py * py)) (p : bool) :=
      match m with
      | [] => ([], true, p)
      | (k, x) :: r =>
          let sep := if other then str ", " else [] in
          let '(tk, ok, p) := dmp (level - 1) 0 k p in
          if ok then
            let start := sep ++ tk ++ str ": " in
            if has_name names k then let '(t, ok, p) := members true r p in (start ++ str "-hidden-" ++ t, ok, p)
            else
              let '(tv, ok, p) := dmp (level - 1) 0 x false in
              if ok then let '(t, ok, p) := members true r p in (start ++ tv ++ t, ok, p) else (start ++ tv, false, p)
          else (sep, false, p)
      end.
  Lemma dump_list : forall level pos l p, dmp level pos (PyList l) p =
    if level =? 0 then (str "(...)", true, p) else let '(t, ok, p) := items level pos 0 l p in (x28 :: t ++ (if ok then [x29] else []), ok, p).
  Proof. reflexivity. Qed.
  Lemma dump_tuple : forall level pos l p, dmp level pos (PyTuple l) p = dmp level pos (PyList l) p.
  Proof. reflexivity. Qed.
  Lemma dump_dict : forall level pos m p, dmp level pos (PyDict m) p =
    if level =? 0 then (str "{...}", true, p) else let '(t, ok, p) := members level false m p in (x7b :: t ++ (if ok then [x7d] else []), ok, p).
  Proof. reflexivity. Qed.

  Lemma items_alike : forall level pos l l' n p, length l = length l' ->
    (forall i x y, nth_error l i = Some x -> nth_error l' i = Some y -> hidden_item pos (n + i) \/ forall q, dmp (level - 1) 0 x q = dmp (level - 1) 0 y q) ->
    items level pos (Z.of_nat n) l p = items level pos (Z.of_nat n) l' p.
  Proof.
    intros level pos. induction l as [|x l IH]; intros [|y l'] n p L H; try discriminate L; [reflexivity|]. cbn [items].
    assert (N: forall q, items level pos (Z.of_nat n + 1) l q = items level pos (Z.of_nat n + 1) l' q).
    { intros q. replace (Z.of_nat n + 1) with (Z.of_nat (S n)) by lia. apply IH; [injection L as L; exact L|].
      intros i a b A B. replace (S n + i)%nat with (n + S i)%nat by lia. apply H; assumption. }
    destruct ((Z.of_nat n <? 64) && Z.testbit pos (Z.of_nat n))%bool eqn:E; [rewrite N; reflexivity|].
    destruct (H 0%nat x y eq_refl eq_refl) as [(B & T)|D].
    - rewrite Nat.add_0_r in B, T. rewrite T in E. replace (Z.of_nat n <? 64) with true in E by lia. discriminate.
    - rewrite D. destruct (dmp (level - 1) 0 y p) as [[t ok] q]. rewrite N. reflexivity.
  Qed.

  Lemma members_alike : forall level m m' o p, length m = length m' ->
    (forall i a b, nth_error m i = Some a -> nth_error m' i = Some b ->
       fst a = fst b /\ (secret names (fst a) \/ forall q, dmp (level - 1) 0 (snd a) q = dmp (level - 1) 0 (snd b) q)) ->
    members level o m p = members level o m' p.
  Proof.
    intros level. induction m as [|[k x] m IH]; intros [|[k' y] m'] o p L H; try discriminate L; [reflexivity|]. cbn [members].
    destruct (H 0%nat (k, x) (k', y) eq_refl eq_refl) as (K & D). cbn [fst snd] in K, D. subst k'.
    assert (N: forall q, members level true m q = members level true m' q).
    { intros q. apply IH; [injection L as L; exact L|]. intros i a b A B. apply (H (S i)); assumption. }
    destruct (dmp (level - 1) 0 k p) as [[tk [|]] q]; [|reflexivity].
    destruct D as [S|D].
    - rewrite (secret_hidden k S). rewrite N. reflexivity.
    - destruct (has_name names k); [rewrite N; reflexivity|]. rewrite D. destruct (dmp (level - 1) 0 y false) as [[t ok] q2]. rewrite N. reflexivity.
  Qed.

  Lemma alike_dump : forall v v' level pos p, alike names level pos v v' -> dmp level pos v p = dmp level pos v' p.
  Proof.
    induction v as [|b|b|z|d|s|s|d|d|l IH|l IH|m IH|c mm|] using py_nested_ind; intros v' level pos p A; inversion A; subst; try reflexivity.
    - rewrite !dump_list. destruct (level =? 0); [reflexivity|]. change 0 with (Z.of_nat 0) at 1 2.
      rewrite (items_alike level pos l l' 0 p); [reflexivity|assumption|]. intros i x y X Y. cbn [Nat.add].
      match goal with H: forall i x y, _ -> _ -> _ \/ _ |- _ => destruct (H i x y X Y) as [B|B] end; [left; exact B|right]. intros q.
      rewrite Forall_forall in IH. apply (IH x); [eapply nth_error_In; exact X|exact B].
    - rewrite !dump_tuple, !dump_list. destruct (level =? 0); [reflexivity|]. change 0 with (Z.of_nat 0) at 1 2.
      rewrite (items_alike level pos l l' 0 p); [reflexivity|assumption|]. intros i x y X Y. cbn [Nat.add].
      match goal with H: forall i x y, _ -> _ -> _ \/ _ |- _ => destruct (H i x y X Y) as [B|B] end; [left; exact B|right]. intros q.
      rewrite Forall_forall in IH. apply (IH x); [eapply nth_error_In; exact X|exact B].
    - rewrite !dump_dict. destruct (level =? 0); [reflexivity|]. rewrite (members_alike level m m' false p); [reflexivity|assumption|].
      intros i a b X Y. match goal with H: forall i a b, _ -> _ -> _ /\ _ |- _ => destruct (H i a b X Y) as (K & B) end. split; [exact K|].
      destruct B as [B|B]; [left; exact B|right]. intros q. rewrite Forall_forall in IH. apply (IH a); [eapply nth_error_In; exact X|exact B].
  Qed.

  (** * Printable objects *)
  Hypothesis show_text : forall d, is_text (show d).
  Hypothesis repr_text : forall v, exists u, repr v = Some u /\ Forall uchar u.
  Hypothesis bytes_texts : forall s, exists u, bytes_text s = Some u /\ Forall (fun c => 0 <= c < 128) u.

  Lemma text_app : forall a b, is_text a -> is_text b -> is_text (a ++ b).
  Proof.
    intros a b (u & FU & ->) (w & FW & ->). exists (u ++ w). split; [apply Forall_app; auto|]. rewrite flat_map_app. reflexivity.
  Qed.
  Lemma text_ascii : forall s, forallb (fun c => b2z c <? 128) s = true -> is_text s.
  Proof.
    intros s H. exists (map b2z s). apply ascii_text. rewrite forallb_forall in H. destruct (existsb _ s) eqn:E; [|reflexivity]. apply existsb_exists in E as (c & I & C).
    specialize (H c I). lia.
  Qed.
  Lemma ascii_bytes : forall u, Forall (fun c => 0 <= c < 128) u -> forallb (fun c => b2z c <? 128) (flat_map utf8_char u) = true /\ Forall uchar u.
  Proof.
    intros u F. induction F as [|c u C _ (IH & U)]; [split; [reflexivity|constructor]|]. cbn [flat_map]. split; [|constructor; [unfold uchar; lia|exact U]].
    unfold utf8_char at 1. replace (c <? 128) with true by lia. cbn [app forallb]. rewrite b2z_z2b_small by lia. replace (c <? 128) with true by lia. exact IH.
  Qed.
  Lemma ascii_take : forall n s, forallb (fun c => b2z c <? 128) s = true -> forallb (fun c => b2z c <? 128) (ztake n s) = true.
  Proof.
    intros n s H. unfold ztake. rewrite forallb_forall in *. intros c I. apply H. revert I. generalize (Z.to_nat n). clear. intros k I.
    rewrite <- (firstn_skipn k s). apply in_or_app. left. exact I.
  Qed.

  Lemma print_text : forall u pre suf err limit, Forall uchar u -> is_text pre -> is_text suf ->
    limit < 0 \/ (0 <= limit /\ (blen (flat_map utf8_char u) < limit \/ Forall (fun c => c < 128) u)) ->
    exists t, print_string u pre suf err limit = (t, true) /\ is_text t.
  Proof.
    intros u pre suf err limit F P S L. unfold print_string. rewrite (encode_xml u F). eexists. split; [reflexivity|]. apply text_app; [exact P|]. apply text_app; [|exact S].
    destruct ((limit <? 0) || (blen (flat_map utf8_char u) <? limit))%bool eqn:E; [exists u; split; [exact F|reflexivity]|].
    destruct L as [L|(_ & [L|A])]; [lia|lia|]. apply text_app; [|apply text_ascii; reflexivity]. apply text_ascii, ascii_take, ascii_bytes.
    rewrite Forall_forall in *. intros c I. specialize (F c I). specialize (A c I). unfold uchar in F. lia.
  Qed.

  (** A dump is a text and no exception is pending. *)
  Definition fine (r : bytes * bool * bool) : Prop := exists t, r = (t, true, false) /\ is_text t.

  Lemma fine_str : forall u level pos, short_or_ascii u -> fine (dmp level pos (PyStr u) false).
  Proof.
    intros u level pos (F & L). cbn [dump]. destruct (print_text u [x22] [x22] (str "<STRING>") 10 F) as (t & E & T); try (apply text_ascii; reflexivity).
    - right. split; [lia|exact L].
    - rewrite E. exists t. split; [reflexivity|exact T].
  Qed.

  Lemma fine_items : forall level pos l i, Forall (fun x => fine (dmp (level - 1) 0 x false)) l -> fine (items level pos i l false).
  Proof.
    intros level pos l i F. revert i. induction F as [|x l (t & E & T) _ IH]; intros i; cbn [items]; [exists []; split; [reflexivity|apply text_ascii; reflexivity]|].
    assert (S: is_text (if i =? 0 then [] else str ", ")) by (destruct (i =? 0); apply text_ascii; reflexivity).
    destruct (IH (i + 1)) as (t2 & E2 & T2). rewrite E, E2. destruct ((i <? 64) && Z.testbit pos i)%bool; eexists; (split; [reflexivity|]);
      apply text_app; auto; apply text_app; auto; apply text_ascii; reflexivity.
  Qed.
  Lemma fine_members : forall level m o, Forall (fun kv => (exists u, fst kv = PyStr u /\ short_or_ascii u) /\ fine (dmp (level - 1) 0 (snd kv) false)) m -> fine (members level o m false).
  Proof.
    intros level m o F. revert o. induction F as [|[k x] m ((u & K & SU) & t & E & T) _ IH]; intros o; cbn [members]; [exists []; split; [reflexivity|apply text_ascii; reflexivity]|].
    cbn [fst snd] in *. subst k. assert (S: is_text (if o then str ", " else [])) by (destruct o; apply text_ascii; reflexivity).
    destruct (fine_str u (level - 1) 0 SU) as (tk & EK & TK). rewrite EK, E. destruct (IH true) as (t2 & E2 & T2). rewrite E2.
    assert (ST: is_text ((if o then str ", " else []) ++ tk ++ str ": ")) by (apply text_app; [exact S|]; apply text_app; [exact TK|apply text_ascii; reflexivity]).
    destruct (has_name names (PyStr u)); eexists; (split; [reflexivity|]); apply text_app; auto; apply text_app; auto; apply text_ascii; reflexivity.
  Qed.

  Lemma fine_repr : forall v level pos, match v with PyNone | PyStdDate _ | PyFault _ _ | PyOther => True | _ => False end -> fine (dmp level pos v false).
  Proof.
    intros v level pos H. destruct (repr_text v) as (u & E & F). destruct (print_text u [] [] [] (-1) F) as (t & P & T); try (apply text_ascii; reflexivity); [left; lia|].
    destruct v; try contradiction; cbn [dump]; rewrite E, P; exists t; (split; [reflexivity|exact T]).
  Qed.

  Lemma printable_fine : forall v level pos, printable v -> fine (dmp level pos v false).
  Proof.
    induction v as [|b|b|z|d|s|s|d|d|l IH|l IH|m IH|c mm|] using py_nested_ind; intros level pos A; try (apply fine_repr; exact I).
    - exists (if b then str "true" else str "false"). split; [reflexivity|]. destruct b; apply text_ascii; reflexivity.
    - exists (if b then str "true" else str "false"). split; [reflexivity|]. destruct b; apply text_ascii; reflexivity.
    - inversion A; subst. cbn [dump]. replace ((- 2 ^ 63 <=? z) && (z <? 2 ^ 63))%bool with true by lia. exists (dec_signed z). split; [reflexivity|].
      apply text_ascii, plain_ascii, dec_plain.
    - exists (show d). split; [reflexivity|apply show_text].
    - cbn [dump]. destruct (bytes_texts s) as (u & E & F). destruct (ascii_bytes u F) as (_ & U).
      destruct (print_text u [] [] (str "<BASE64>") 10 U) as (t & P & T); try (apply text_ascii; reflexivity).
      + right. split; [lia|right]. eapply Forall_impl; [|exact F]. intros c C. cbn in C. lia.
      + rewrite E, P. exists t. split; [reflexivity|exact T].
    - inversion A; subst. apply fine_str. assumption.
    - cbn [dump date_text].
      set (u := map b2z (iso_text (dt_year d) (dt_month d) (dt_day d) (dt_hour d) (dt_min d) (dt_sec d) (dt_tz d))).
      assert (U: Forall uchar u).
      { pose proof (plain_ascii _ (iso_plain d)) as P. unfold u. apply Forall_forall. intros c C. apply in_map_iff in C as (x & <- & X).
        rewrite forallb_forall in P. unfold L_Xml.iso_of_dt in P. specialize (P x X). pose proof (b2z_range x). unfold uchar. lia. }
      destruct (print_text u [] [] (str "<DATETIME>") (-1) U) as (t & P & T); try (apply text_ascii; reflexivity); [left; lia|]. rewrite P. exists t. split; [reflexivity|exact T].
    - inversion A; subst. rewrite dump_list. destruct (level =? 0); [exists (str "(...)"); split; [reflexivity|apply text_ascii; reflexivity]|].
      destruct (fine_items level pos l 0) as (t & E & T).
      { rewrite Forall_forall in *. intros x X. apply IH; auto. }
      rewrite E. eexists. split; [reflexivity|]. change (x28 :: t ++ [x29]) with ([x28] ++ t ++ [x29]). apply text_app; [apply text_ascii; reflexivity|].
      apply text_app; [exact T|apply text_ascii; reflexivity].
    - inversion A; subst. rewrite dump_tuple, dump_list. destruct (level =? 0); [exists (str "(...)"); split; [reflexivity|apply text_ascii; reflexivity]|].
      destruct (fine_items level pos l 0) as (t & E & T).
      { rewrite Forall_forall in *. intros x X. apply IH; auto. }
      rewrite E. eexists. split; [reflexivity|]. change (x28 :: t ++ [x29]) with ([x28] ++ t ++ [x29]). apply text_app; [apply text_ascii; reflexivity|].
      apply text_app; [exact T|apply text_ascii; reflexivity].
    - inversion A; subst. rewrite dump_dict. destruct (level =? 0); [exists (str "{...}"); split; [reflexivity|apply text_ascii; reflexivity]|].
      destruct (fine_members level m false) as (t & E & T).
      { rewrite Forall_forall in *. intros x X. match goal with H: forall x, In x m -> _ /\ _ |- _ => destruct (H x X) as (K & V) end. split; [exact K|]. apply (IH x X). exact V. }
      rewrite E. eexists. split; [reflexivity|]. change (x7b :: t ++ [x7d]) with ([x7b] ++ t ++ [x7d]). apply text_app; [apply text_ascii; reflexivity|].
      apply text_app; [exact T|apply text_ascii; reflexivity].
  Qed.
End Tree.
