(** Properties of the textual dump: C21. *)
From Coq Require Import Lia.
From Verif Require Import Base Value Text M_Dump S_Dump L_Base.

Lemma in_names_spec : forall k names, in_names k names = true <-> In k names.
Proof.
  intros k names. unfold in_names. rewrite existsb_exists. split.
  - intros (x & H & E). apply bytes_eqb_eq in E. subst. exact H.
  - intro H. exists k. split; auto. apply bytes_eqb_refl.
Qed.

Lemma dump_text_alike : forall maxlen s t, blen s < 2 ^ 63 -> blen t < 2 ^ 63 ->
  alike_text maxlen s t -> dump_text maxlen s = dump_text maxlen t.
Proof.
  intros maxlen s t BS BT [->|(H1 & H2 & H3)]; [reflexivity|]. unfold dump_text.
  rewrite (u64_id maxlen) by (unfold in_u64; lia).
  replace (maxlen =? -1) with false by lia. replace (maxlen <? blen s) with true by lia.
  replace (maxlen <? blen t) with true by lia. cbn [negb andb]. rewrite H3. reflexivity.
Qed.

(** Strings shorter than 2^63 bytes (no memory holds longer ones). *)
Fixpoint in_memory (v : value) : Prop :=
  match v with
  | VString s | VStringView s => blen s < 2 ^ 63
  | VStruct m =>
      (fix all (l : list (bytes * value)) : Prop :=
         match l with [] => True | (_, x) :: r => in_memory x /\ all r end) m
  | VArray l =>
      (fix all (l : list value) : Prop := match l with [] => True | x :: r => in_memory x /\ all r end) l
  | VSecret x => True
  | _ => True
  end.

Definition dump_members sd names maxlen (level : Z) :=
  fix go (first : bool) (l : list (bytes * value)) : bytes :=
    match l with
    | [] => []
    | (k, x) :: r =>
        (if first then [] else comma) ++
        (if in_names k names then k ++ str ": " ++ str "-hidden-"
         else k ++ str ": " ++ dump sd names maxlen (below level) 0 x)
        ++ go false r
    end.
Definition dump_items sd names maxlen (level pos : Z) :=
  fix go (i : Z) (l : list value) : bytes :=
    match l with
    | [] => []
    | x :: r =>
        (if i =? 0 then [] else comma) ++
        (if (i <? 64) && Z.testbit pos i then str "-hidden-" else dump sd names maxlen (below level) 0 x)
        ++ go (i + 1) r
    end.
Lemma dump_struct : forall sd names maxlen level pos m, dump sd names maxlen level pos (VStruct m) =
  str "{" ++ (if level =? 0 then str "..." else dump_members sd names maxlen level true m) ++ str "}".
Proof. reflexivity. Qed.
Lemma dump_array : forall sd names maxlen level pos l, dump sd names maxlen level pos (VArray l) =
  str "(" ++ (if level =? 0 then str "..." else dump_items sd names maxlen level pos 0 l) ++ str ")".
Proof. reflexivity. Qed.

(** ** C21: two values that differ only in hidden parts have the same dump. *)
Theorem C21_dump_hides : forall show_double names maxlen v w level pos,
  in_memory v -> in_memory w ->
  alike names maxlen level pos v w ->
  dump show_double names maxlen level pos v = dump show_double names maxlen level pos w.
Proof.
  intros sd names maxlen v. induction v using value_nested_ind; intros w level pos MV MW H0; destruct w;
    try (cbn [alike] in H0; congruence); try reflexivity.
  - cbn [alike dump in_memory] in *. apply dump_text_alike; auto.
  - cbn [alike dump in_memory] in *. apply dump_text_alike; auto.
  - cbn [alike] in H0. rewrite !dump_struct. destruct (level =? 0) eqn:EL; [reflexivity|].
    apply Z.eqb_neq in EL. destruct H0 as [H0|H0]; [contradiction|]. cbn [in_memory] in MV, MW.
    assert (G : forall b, dump_members sd names maxlen level b m = dump_members sd names maxlen level b m0); [|rewrite G; reflexivity].
    revert m0 MW H0. induction H as [|[k x] m Hx F IH]; intros [|[k' y] n] MW H0 b; try contradiction; [reflexivity|].
    destruct H0 as (E & HK & HR). subst k'. destruct MV as [MV1 MV2], MW as [MW1 MW2]. cbn [dump_members].
    f_equal. f_equal; [|apply (IH MV2 n MW2 HR)].
    destruct (in_names k names) eqn:EN; [reflexivity|]. destruct HK as [HK|HK].
    + apply in_names_spec in HK. congruence.
    + cbn [snd] in Hx. rewrite (Hx y (below level) 0) by auto. reflexivity.
  - cbn [alike] in H0. rewrite !dump_array. destruct (level =? 0) eqn:EL; [reflexivity|].
    apply Z.eqb_neq in EL. destruct H0 as [H0|H0]; [contradiction|]. cbn [in_memory] in MV, MW.
    assert (G : forall i, (fix all (i : Z) (m n : list value) : Prop :=
           match m, n with
           | [], [] => True
           | x :: m', y :: n' => (0 <= i < 64 /\ Z.testbit pos i = true \/ alike names maxlen (below level) 0 x y) /\ all (i + 1) m' n'
           | _, _ => False
           end) i l l0 -> dump_items sd names maxlen level pos i l = dump_items sd names maxlen level pos i l0);
      [|rewrite (G 0 H0); reflexivity]. clear H0.
    revert l0 MW. induction H as [|x m Hx F IH]; intros [|y n] MW i H0; try contradiction; [reflexivity|].
    destruct H0 as (HK & HR). destruct MV as [MV1 MV2], MW as [MW1 MW2]. cbn [dump_items]. f_equal. f_equal; [|apply (IH MV2 n MW2 _ HR)].
    destruct ((i <? 64) && Z.testbit pos i) eqn:EN; [reflexivity|]. destruct HK as [[HK1 HK2]|HK].
    + rewrite HK2, andb_true_r in EN. lia.
    + apply Hx; auto.
Qed.
Print Assumptions C21_dump_hides.

(** Two logins whose secrets, hidden password and hidden second parameter differ; the dump still shows
    everything else. *)
Definition login (pw token : bytes) (n : Z) : value :=
  VArray [VStruct [(str "password", VString pw); (str "user", VString (str "joe"))]; VInt n; VSecret (VString token); VInt 5].

Example C21_sample : forall sd pw1 pw2 t1 t2 n1 n2,
  alike [str "password"] 20 (-1) 2 (login pw1 t1 n1) (login pw2 t2 n2)
  /\ dump sd [str "password"] 20 (-1) 2 (login (str "x") (str "y") 7)
     = str "({password: -hidden-, user: " ++ [x22] ++ str "joe" ++ [x22] ++ str "}, -hidden-, -hidden-, 5)".
Proof.
  intros. split; [|vm_compute; reflexivity]. right. split; [|split; [|split; [|split]]]; auto.
  - right. right. split; auto. split; [left; left; reflexivity|]. split; auto. split; [right; left; reflexivity|exact I].
  - left. split; [lia|reflexivity].
  - right. exact I.
  - right. reflexivity.
Qed.

(** ** C119: what is shown of strings and binaries. *)

Lemma in_hex_same : forall c, hex2 c = in_hex c.
Proof. intro c. destruct c; vm_compute; reflexivity. Qed.
Definition hex_more (first : bool) (s : bytes) : bytes := match s with [] => [] | _ => if first then hex_text s else x20 :: hex_text s end.
Lemma hex_more_cons : forall first c s, hex_more first (c :: s) = (if first then [] else [x20]) ++ hex2 c ++ hex_more false s.
Proof.
  intros first c s. rewrite in_hex_same. unfold hex_more, hex_text. cbn [map spaced]. destruct s as [|d s]; [rewrite app_nil_r; destruct first; reflexivity|].
  cbn [map]. destruct first; reflexivity.
Qed.
Lemma hex_more_app : forall a first b, hex_more first (a ++ b) = hex_more first a ++ hex_more (match a with [] => first | _ => false end) b.
Proof.
  induction a as [|c a IH]; intros first b; [reflexivity|]. cbn [app]. rewrite !hex_more_cons, IH, <- !app_assoc. do 3 f_equal. destruct a; reflexivity.
Qed.

Lemma hex_all : forall s first len, hex_loop (-1) first len s = (hex_more first s, len).
Proof.
  induction s as [|c s IH]; intros first len; [reflexivity|]. cbn [hex_loop]. change (-1 =? -1) with true. cbn [negb andb]. rewrite IH, hex_more_cons, <- app_assoc. reflexivity.
Qed.
Lemma hex_some : forall maxlen, maxlen <> -1 -> forall s first len, 0 < len ->
  hex_loop maxlen first len s = (hex_more first (ztake len s), Z.max 0 (len - blen s)).
Proof.
  intros maxlen M. induction s as [|c s IH]; intros first len L.
  - unfold ztake. rewrite firstn_nil. cbn. f_equal. lia.
  - cbn [hex_loop]. replace (maxlen =? -1) with false by lia. cbn [negb andb].
    assert (T: ztake len (c :: s) = c :: ztake (len - 1) s) by (unfold ztake; replace (Z.to_nat len) with (S (Z.to_nat (len - 1))) by lia; reflexivity).
    assert (B: blen (c :: s) = 1 + blen s) by (unfold blen; cbn [List.length]; lia). assert (0 <= blen s) by (unfold blen; lia).
    rewrite T, hex_more_cons, B. destruct (len - 1 =? 0) eqn:E.
    + replace (len - 1) with 0 by lia. unfold ztake. cbn [Z.to_nat firstn hex_more]. rewrite app_nil_r. f_equal. lia.
    + rewrite IH by lia. rewrite <- app_assoc. f_equal. lia.
Qed.

(** Strings: whole if they have at most [maxlen] bytes or there is no limit, otherwise the first [maxlen] and three dots. *)
Theorem C119_string : forall show_double names maxlen level pos s, blen s < 2 ^ 63 -> -1 <= maxlen < 2 ^ 63 ->
  dump show_double names maxlen level pos (VString s) =
  [x22] ++ (if (maxlen =? -1) || (blen s <=? maxlen) then s else ztake maxlen s ++ str "...") ++ [x22].
Proof.
  intros sd names maxlen level pos s B M. cbn [dump]. unfold dump_text. destruct (Z.eqb_spec maxlen (-1)) as [->|N]; [reflexivity|]. rewrite (u64_id maxlen) by (unfold in_u64; lia).
  cbn [negb andb orb]. destruct (Z.leb_spec (blen s) maxlen); [replace (maxlen <? blen s) with false by lia|replace (maxlen <? blen s) with true by lia]; reflexivity.
Qed.
Print Assumptions C119_string.

(** Binaries: the first [maxlen] bytes in hexadecimal, all without a limit; three dots exactly if there are at least [maxlen]. *)
Theorem C119_binary_partial : forall show_double names maxlen level pos s, maxlen = -1 \/ 0 < maxlen ->
  dump show_double names maxlen level pos (VBinary s) =
  str "b" ++ [x22] ++ (if maxlen =? -1 then hex_text s else hex_text (ztake maxlen s) ++ (if maxlen <=? blen s then str "..." else [])) ++ [x22].
Proof.
  intros sd names maxlen level pos s M. cbn [dump]. assert (T: forall s, hex_more true s = hex_text s) by (intros []; reflexivity).
  destruct (Z.eqb_spec maxlen (-1)) as [->|N].
  - rewrite hex_all, T. reflexivity.
  - rewrite hex_some, T by lia. replace (Z.max 0 (maxlen - blen s) =? 0) with (maxlen <=? blen s) by lia. rewrite <- !app_assoc. reflexivity.
Qed.
Print Assumptions C119_binary_partial.

(** References to data in pieces are shown as the same data in one piece, but for the opening. *)
Theorem C119_pieces_partial : forall show_double names maxlen level pos cs n, maxlen = -1 \/ 0 < maxlen ->
  str "b" ++ [x22] ++ dump show_double names maxlen level pos (VBinaryRef n cs) = dump show_double names maxlen level pos (VBinary (concat cs)).
Proof.
  intros sd names maxlen level pos cs n M. cbn [dump].
  assert (H: hex_chunks maxlen true maxlen cs = hex_loop maxlen true maxlen (concat cs)); [|rewrite H; destruct (hex_loop maxlen true maxlen (concat cs)); reflexivity].
  destruct (Z.eqb_spec maxlen (-1)) as [->|N].
  - generalize true as first. induction cs as [|c cs IH]; intro first; [reflexivity|]. cbn [hex_chunks concat]. rewrite hex_all. change (-1 =? 0) with false. cbv iota.
    rewrite IH, !hex_all, hex_more_app. reflexivity.
  - assert (L: 0 < maxlen) by lia. revert L. generalize maxlen at 1 3 5 as len. generalize true as first. induction cs as [|c cs IH]; intros first len L.
    + cbn [hex_chunks concat hex_loop]. reflexivity.
    + cbn [hex_chunks concat]. rewrite !hex_some by lia. assert (0 <= blen c) by (unfold blen; lia). assert (BA: blen (c ++ concat cs) = blen c + blen (concat cs)) by (unfold blen; rewrite app_length; lia).
      assert (0 <= blen (concat cs)) by (unfold blen; lia).
      destruct (Z.max 0 (len - blen c) =? 0) eqn:E.
      * rewrite BA. f_equal; [|lia]. f_equal. unfold ztake. rewrite firstn_app. replace (Z.to_nat len - List.length c)%nat with 0%nat by (unfold blen in E; lia). rewrite firstn_O, app_nil_r. reflexivity.
      * replace (Z.max 0 (len - blen c)) with (len - blen c) by lia. rewrite IH by lia. rewrite hex_some by lia. rewrite BA. f_equal; [|lia].
        assert (TC: ztake len c = c) by (unfold ztake; apply firstn_all2; unfold blen in E; lia). rewrite TC.
        unfold ztake. rewrite firstn_app. replace (Z.to_nat len - List.length c)%nat with (Z.to_nat (len - blen c)) by (unfold blen; lia).
        change (firstn (Z.to_nat len) c) with (ztake len c). rewrite TC, hex_more_app. reflexivity.
Qed.
Print Assumptions C119_pieces_partial.

(** Refuted: of every binary of [maxlen] bytes all is shown, and three dots; with the limit 0 all bytes of every binary; of an empty one dots. *)
Theorem C119_dots_refuted : forall show_double names level pos s, s <> [] ->
  dump show_double names (blen s) level pos (VBinary s) = str "b" ++ [x22] ++ hex_text s ++ str "..." ++ [x22].
Proof.
  intros sd names level pos s N. assert (0 < blen s) by (destruct s; [congruence|unfold blen; cbn [List.length]; lia]). rewrite C119_binary_partial by lia.
  replace (blen s =? -1) with false by lia. rewrite Z.leb_refl. unfold ztake, blen. rewrite Nat2Z.id, firstn_all, <- app_assoc. reflexivity.
Qed.
Print Assumptions C119_dots_refuted.
Theorem C119_zero_refuted : forall show_double names level pos s, s <> [] ->
  dump show_double names 0 level pos (VBinary s) = str "b" ++ [x22] ++ hex_text s ++ [x22].
Proof.
  intros sd names level pos s N. assert (G: forall s first len, len <= 0 -> hex_loop 0 first len s = (hex_more first s, len - blen s)).
  { clear. induction s as [|c s IH]; intros first len L; [cbn; f_equal; lia|]. cbn [hex_loop]. change (0 =? -1) with false. cbn [negb andb]. replace (len - 1 =? 0) with false by lia.
    rewrite IH by lia. rewrite hex_more_cons, <- app_assoc. f_equal. unfold blen. cbn [List.length]. lia. }
  cbn [dump]. rewrite G by lia. assert (B: 0 < blen s) by (destruct s; [congruence|unfold blen; cbn [List.length]; lia]). destruct (Z.eqb_spec (0 - blen s) 0) as [X|_]; [lia|]. destruct s; [congruence|reflexivity].
Qed.
Print Assumptions C119_zero_refuted.

Example C119_sample : forall sd, dump sd [] 3 (-1) 0 (VBinary [x01; xff; x20; x10]) = str "b" ++ [x22] ++ str "01 ff 20..." ++ [x22] /\
  dump sd [] 3 (-1) 0 (VBinaryRef 0 [[x01]; []; [xff; x20; x10]]) = str "01 ff 20..." ++ [x22] /\
  dump sd [] 3 (-1) 0 (VString (str "abcd")) = [x22] ++ str "abc..." ++ [x22].
Proof. intro sd. split; [|split]; vm_compute; reflexivity. Qed.

