(** Whole XML messages: documents, pieces, the version mark. *)
From Coq Require Import Lia.
From Verif Require Import Base Value Text M_Marshal M_BinUnmarshal M_TreeBuilder M_Base64 M_Dump M_Json M_Iso M_Url M_Xml
  S_Value S_Base64 S_Iso S_Xml S_Wire L_Base L_Text L_RoundTrip L_TreeBuilder L_Base64 L_Iso L_Json L_Xml L_Xml2 L_Xml3.
Ltac Zify.zify_post_hook ::= Z.div_mod_to_equations.
Ltac tname := repeat split; vm_compute; reflexivity.

(** ** Callbacks in other pieces *)
Section Pieces.
  Context {B : Type}.
  Variable bstep : B -> event -> B * option fail.
  Variable strtod : bytes -> option Z.
  Variable erange : bool.
  Notation step w := (sax_step bstep strtod erange w).
  Notation steps w := (sax_steps bstep strtod erange w).

  Lemma steps_join : forall w l u b, steps w u b (sax_join l) = steps w u b l.
  Proof.
    intro w. induction l as [|e l IH]; intros u b; [reflexivity|]. destruct e as [n|n|a].
    - cbn [sax_join sax_steps]. destruct (step w u b (SStart n)). apply IH.
    - cbn [sax_join sax_steps]. destruct (step w u b (SEnd n)). apply IH.
    - assert (E0 : step w u b (SChars []) = (u, b)).
      { unfold sax_step. destruct u as [x1 x2 x3 x4 x5 [f|] x7 x8]; cbn [x_exc]; [reflexivity|].
        unfold x_set_buf. cbn [x_type x_main x_fcode x_fmsg x_buf x_exc x_ver x_check]. rewrite app_nil_r. reflexivity. }
      cbn [sax_join sax_steps]. destruct a as [|c a].
      + rewrite E0. apply IH.
      + destruct (sax_join l) as [|[n|n|s] r] eqn:E.
        * cbn [sax_steps]. destruct (step w u b (SChars (c :: a))) as [u1 b1]. rewrite <- (IH u1 b1). reflexivity.
        * cbn [sax_steps]. destruct (step w u b (SChars (c :: a))) as [u1 b1]. rewrite <- (IH u1 b1). reflexivity.
        * cbn [sax_steps]. destruct (step w u b (SChars (c :: a))) as [u1 b1]. rewrite <- (IH u1 b1). reflexivity.
        * assert (E1 : step w u b (SChars ((c :: a) ++ s)) = let '(u1, b1) := step w u b (SChars (c :: a)) in step w u1 b1 (SChars s)).
          { unfold sax_step. destruct u as [x1 x2 x3 x4 x5 [f|] x7 x8]; cbn [x_exc x_set_buf]; [reflexivity|].
            unfold x_set_buf. cbn [x_type x_main x_fcode x_fmsg x_buf x_exc x_ver x_check]. rewrite app_assoc. reflexivity. }
          cbn [sax_steps]. rewrite E1. destruct (step w u b (SChars (c :: a))) as [u1 b1]. rewrite <- (IH u1 b1). reflexivity.
  Qed.

  Lemma sax_steps_app : forall w a c u b, steps w u b (a ++ c) = let '(u', b') := steps w u b a in steps w u' b' c.
  Proof.
    intro w. induction a as [|e a IH]; intros c u b; cbn [app sax_steps]; auto.
    destruct (step w u b e) as [u1 b1]. apply IH.
  Qed.

  (** The version does not matter. *)
  Definition set_vc (v : version) (k : bool) (u : xun) : xun :=
    mkXun (x_type u) (x_main u) (x_fcode u) (x_fmsg u) (x_buf u) (x_exc u) v k.

  Ltac fin := unfold set_vc, x_none, x_with, x_set_fault, x_set_buf, x_throw, x_set_exc;
    cbn [x_type x_main x_fcode x_fmsg x_buf x_exc x_ver x_check];
    repeat match goal with
    | |- context [bstep ?b ?e] => destruct (bstep b e) as [? [?|]]; cbn [x_type x_main x_fcode x_fmsg x_buf x_exc x_ver x_check]
    | |- context [if ?c then _ else _] => destruct c; cbn [x_type x_main x_fcode x_fmsg x_buf x_exc x_ver x_check]
    | |- context [match strtod ?s with _ => _ end] => destruct (strtod s); cbn [x_type x_main x_fcode x_fmsg x_buf x_exc x_ver x_check]
    | |- context [match strtol_all ?s with _ => _ end] => destruct (strtol_all s); cbn [x_type x_main x_fcode x_fmsg x_buf x_exc x_ver x_check]
    | |- context [match parse_iso ?s with _ => _ end] => destruct (parse_iso s); cbn [x_type x_main x_fcode x_fmsg x_buf x_exc x_ver x_check]
    end; try reflexivity.

  Definition same3 (v : version) (k : bool) (r : @xres B) : @xres B := let '(u, b, f) := r in (set_vc v k u, b, f).
  Lemma caught_vc : forall v k (r : @xres B), x_caught (same3 v k r) = let '(u, b) := x_caught r in (set_vc v k u, b).
  Proof. intros v k [[u b] [[e|]|]]; cbn; [destruct e|..]; reflexivity. Qed.
  Lemma svt_vc : forall w v k u b n, set_value_type bstep w (set_vc v k u) b n = same3 v k (set_value_type bstep w u b n).
  Proof.
    intros w v k [x1 x2 x3 x4 x5 x6 x7 x8] b n. unfold set_value_type, x_response, x_emit. destruct (get_value_type n); fin.
  Qed.
  Lemma svd_vc : forall v k u b s, set_value_data bstep strtod erange (set_vc v k u) b s = same3 v k (set_value_data bstep strtod erange u b s).
  Proof.
    intros v k [x1 x2 x3 x4 x5 x6 x7 x8] b s. unfold set_value_data, x_emit. cbn [set_vc x_type x_main x_fmsg x_fcode]. destruct x1; fin.
  Qed.
  Lemma ce_vc : forall v k u b n, close_entity bstep (set_vc v k u) b n = same3 v k (close_entity bstep u b n).
  Proof.
    intros v k [x1 x2 x3 x4 x5 x6 x7 x8] b n. unfold close_entity, x_emit. cbn [set_vc x_none x_with x_type x_main x_fmsg x_fcode].
    destruct x2; cbn [xtype_eqb]; destruct (get_value_type n); fin.
  Qed.

  Lemma step_vc : forall w v k u b e, step w (set_vc v k u) b e = let '(u', b') := step w u b e in (set_vc v k u', b').
  Proof.
    intros w v k u b e. unfold sax_step. change (x_exc (set_vc v k u)) with (x_exc u). destruct (x_exc u); [reflexivity|].
    destruct e as [n|n|s].
    - rewrite svt_vc. rewrite <- caught_vc. destruct (set_value_type bstep w u b n) as [[u1 b1] [f|]]; reflexivity.
    - change (x_buf (set_vc v k u)) with (x_buf u). rewrite svd_vc. rewrite <- caught_vc.
      destruct (set_value_data bstep strtod erange u b (x_buf u)) as [[u1 b1] [f|]]; cbn [same3]; [reflexivity|]. rewrite ce_vc. reflexivity.
    - reflexivity.
  Qed.
  Lemma steps_vc : forall w l v k u b, steps w (set_vc v k u) b l = let '(u', b') := steps w u b l in (set_vc v k u', b').
  Proof.
    intro w. induction l as [|e l IH]; intros v k u b; cbn [sax_steps]; [reflexivity|]. rewrite step_vc.
    destruct (step w u b e) as [u1 b1]. apply IH.
  Qed.

  (** A stored exception stays. *)
  Lemma steps_exc : forall w l u b, x_exc u <> None -> steps w u b l = (u, b).
  Proof.
    intro w. induction l as [|e l IH]; intros u b H; cbn [sax_steps]; [reflexivity|]. unfold sax_step.
    destruct (x_exc u) eqn:E; [|congruence]. apply IH. rewrite E. exact H.
  Qed.

  (** The wanted type matters at the start tags of messages only. *)
  Definition main_start (e : sax) : Prop :=
    match e with
    | SStart n => n = str "methodCall" \/ n = str "methodResponse" \/ n = str "fault"
    | _ => False
    end.
  Lemma lookup_main : forall n l, (forall k t, In (k, t) l -> t = X_FAULT \/ t = X_METHOD_CALL \/ t = X_METHOD_RESPONSE ->
      k = str "methodCall" \/ k = str "methodResponse" \/ k = str "fault") ->
    lookup_name n l = X_FAULT \/ lookup_name n l = X_METHOD_CALL \/ lookup_name n l = X_METHOD_RESPONSE ->
    n = str "methodCall" \/ n = str "methodResponse" \/ n = str "fault".
  Proof.
    intros n. induction l as [|[k t] l IH]; intros A H; cbn [lookup_name] in H.
    - destruct H as [H|[H|H]]; discriminate.
    - destruct (bytes_eqb n k) eqn:E.
      + apply bytes_eqb_eq in E. subst k. apply (A n t); [left; reflexivity|]. exact H.
      + apply IH; auto. intros k0 t0 I. apply A. right. exact I.
  Qed.
  Lemma step_want : forall w w' u b e, ~ main_start e -> step w u b e = step w' u b e.
  Proof.
    intros w w' u b [n|n|s] H; try reflexivity. unfold sax_step. destruct (x_exc u); [reflexivity|]. f_equal.
    unfold set_value_type. pose proof (lookup_main n xnames) as L. unfold get_value_type in *.
    assert (A : forall k t, In (k, t) xnames -> t = X_FAULT \/ t = X_METHOD_CALL \/ t = X_METHOD_RESPONSE ->
      k = str "methodCall" \/ k = str "methodResponse" \/ k = str "fault").
    { unfold xnames. intros k t I T. cbn [In] in I.
      repeat (destruct I as [I|I]; [inversion I; subst; first [tauto|destruct T as [T|[T|T]]; discriminate]|]). contradiction. }
    specialize (L A). destruct (lookup_name n xnames); try reflexivity; exfalso; apply H; apply L; auto.
  Qed.
  Lemma steps_want : forall w w' l u b, (forall e, In e l -> ~ main_start e) -> steps w u b l = steps w' u b l.
  Proof.
    intros w w'. induction l as [|e l IH]; intros u b H; cbn [sax_steps]; [reflexivity|].
    rewrite (step_want w w') by (apply H; left; reflexivity). destruct (step w' u b e). apply IH. intros e' I. apply H. right. exact I.
  Qed.

  (** Successive pieces. *)
  Lemma all_steps_checked : forall w l u b u' b', x_check u = false ->
    steps w u b (concat (map snd l)) = (u', b') -> x_exc u' = None ->
    x_unmarshall_all bstep strtod erange w u b l = (u', b', None).
  Proof.
    intro w. induction l as [|[chunk batch] l IH]; intros u b u' b' C S X; cbn [map concat x_unmarshall_all] in *.
    - inversion S; subst. reflexivity.
    - rewrite sax_steps_app in S. cbn [snd] in S. unfold x_unmarshall, x_sniff. rewrite C, (andb_false_r (negb (blen chunk =? 0))).
      destruct (steps w u b batch) as [u1 b1] eqn:E1.
      assert (X1 : x_exc u1 = None).
      { destruct (x_exc u1) eqn:EX; [|reflexivity]. rewrite steps_exc in S by congruence. inversion S; subst. congruence. }
      rewrite X1. apply IH; auto.
      clear - C E1. revert u b C E1. induction batch as [|e batch IH]; intros u b C E1; cbn [sax_steps] in E1; [inversion E1; subst; auto|].
      destruct (step w u b e) as [u2 b2] eqn:E. eapply IH; [|exact E1]. 
      replace u with (set_vc (x_ver u) false u) in E by (destruct u; cbn in *; subst; reflexivity).
      rewrite step_vc in E. destruct (step w u b e). inversion E; subst. reflexivity.
  Qed.

  Lemma receive_steps : forall w b pieces last u' b' v,
    pieces <> [] -> (forall p, In p pieces -> fst p <> []) ->
    x_sniff xun_init (fst (hd ([], []) pieces)) = (set_vc v false xun_init, None) ->
    (forall e, In e last -> ~ main_start e) ->
    steps w xun_init b (concat (map snd pieces) ++ last) = (u', b') ->
    x_exc u' = None -> x_type u' = X_NONE ->
    x_receive bstep strtod erange w b pieces last = (set_vc v false u', b', None).
  Proof.
    intros w b pieces last u' b' v NE NN SN ML S X T. unfold x_receive.
    destruct pieces as [|[chunk batch] pieces]; [congruence|]. cbn [hd fst] in SN.
    rewrite sax_steps_app in S. destruct (steps w xun_init b (concat (map snd ((chunk, batch) :: pieces)))) as [u1 b1] eqn:E1.
    assert (X1 : x_exc u1 = None).
    { destruct (x_exc u1) eqn:EX; [|reflexivity]. rewrite steps_exc in S by congruence. inversion S; subst. congruence. }
    assert (A : x_unmarshall_all bstep strtod erange w xun_init b ((chunk, batch) :: pieces) = (set_vc v false u1, b1, None)).
    { transitivity (x_unmarshall_all bstep strtod erange w (set_vc v false xun_init) b ((chunk, batch) :: pieces)).
      - cbn [x_unmarshall_all]. unfold x_unmarshall. rewrite SN.
        unfold x_sniff. cbn [set_vc x_check]. rewrite (andb_false_r (negb (blen chunk =? 0))). reflexivity.
      - apply all_steps_checked; [reflexivity| |exact X1]. rewrite steps_vc. unfold bytes in *. rewrite E1. reflexivity. }
    rewrite A. unfold x_finish, x_unmarshall, x_sniff. change (blen [] =? 0) with true. cbn [negb andb].
    rewrite steps_vc, (steps_want 0 w) by auto. rewrite S. change (x_exc (set_vc v false u')) with (x_exc u'). rewrite X. change (0 =? 0) with true. cbv iota. change (x_type (set_vc v false u')) with (x_type u'). rewrite T. reflexivity.
  Qed.
End Pieces.

(** ** The version mark *)
Lemma ztake_app_known : forall (a r : bytes) n, n >= zlen a -> exists r', ztake n (a ++ r) = a ++ r'.
Proof.
  intros a r n H. exists (ztake (n - zlen a) r). unfold ztake, zlen in *. rewrite firstn_app.
  replace (Z.to_nat n - length a)%nat with (Z.to_nat (n - Z.of_nat (length a))) by lia.
  rewrite firstn_all2 by lia. reflexivity.
Qed.

Definition told (v : version) : version := if (v_major v =? 2) && (v_minor v =? 0) then mkVer 2 0 else mkVer 2 1.
(** What the reader learns from a first piece of this length. *)
Definition learned (v : version) (n : Z) : version := if 46 <=? n then told v else mkVer 2 1.

Lemma sniff_magic : forall ver rest chunk tail, 2 <= v_major ver -> x_magic ver ++ rest = chunk ++ tail -> chunk <> [] ->
  x_sniff xun_init chunk = (set_vc (learned ver (blen chunk)) false xun_init, None).
Proof.
  intros ver rest chunk tail M E NE. unfold learned. rewrite blen_zlen.
  assert (K : exists y, x_magic ver = str "<?xml version=""1.0""?>" ++ nl ++ str "<!--protocolVersion=""2." ++ [y] ++ str """-->" ++ nl
    /\ told ver = mkVer 2 (b2z y - 48) /\ (y = x30 \/ y = x31)).
  { unfold x_magic, told. replace (v_major ver <? 2) with false by lia. destruct ((v_major ver =? 2) && (v_minor ver =? 0)).
    - exists x30. repeat split; auto.
    - exists x31. repeat split; auto. }
  destruct K as (y & KM & KT & KY).
  destruct (46 <=? zlen chunk) eqn:L.
  - assert (P : exists r, chunk = (str "<?xml version=""1.0""?>" ++ nl ++ str "<!--protocolVersion=""2." ++ [y]) ++ r).
    { set (a := str "<?xml version=""1.0""?>" ++ nl ++ str "<!--protocolVersion=""2." ++ [y]) in *.
      assert (LA : zlen a = 46) by (unfold a; reflexivity).
      exists (skipn (length a) chunk). rewrite <- (firstn_skipn (length a) chunk) at 1. apply (f_equal (fun t => t ++ skipn (length a) chunk)).
      assert (Q : firstn (length a) (x_magic ver ++ rest) = firstn (length a) (chunk ++ tail)) by (rewrite E; reflexivity).
      rewrite KM in Q. replace (str "<?xml version=""1.0""?>" ++ nl ++ str "<!--protocolVersion=""2." ++ [y] ++ str """-->" ++ nl)
        with (a ++ str """-->" ++ nl) in Q by (unfold a; repeat rewrite <- app_assoc; reflexivity).
      rewrite <- app_assoc, firstn_app, Nat.sub_diag, firstn_O, app_nil_r, firstn_all in Q.
      rewrite firstn_app in Q. unfold zlen in *. replace (length a - length chunk)%nat with 0%nat in Q by lia.
      rewrite firstn_O, app_nil_r in Q. symmetry. exact Q. }
    destruct P as [r ->]. unfold x_sniff. 
    replace (blen ((str "<?xml version=""1.0""?>" ++ nl ++ str "<!--protocolVersion=""2." ++ [y]) ++ r) =? 0) with false by (rewrite blen_zlen; lia).
    cbn [negb andb xun_init x_check].
    destruct (ztake_app_known (str "<?xml version=""1.0""?>" ++ nl ++ str "<!--protocolVersion=""2." ++ [y]) r 80) as [r' ER].
    { change (zlen (str "<?xml version=""1.0""?>" ++ nl ++ str "<!--protocolVersion=""2." ++ [y])) with 46. lia. }
    rewrite ER.
    assert (F : find_sub version_mark ((str "<?xml version=""1.0""?>" ++ nl ++ str "<!--protocolVersion=""2." ++ [y]) ++ r') = Some 26) by reflexivity.
    rewrite F. change (blen version_mark) with 17. change (26 + 17) with 43. change (43 + 2) with 45.
    rewrite blen_zlen in *. replace (45 <? zlen ((str "<?xml version=""1.0""?>" ++ nl ++ str "<!--protocolVersion=""2." ++ [y]) ++ r)) with true by lia.
    change (Z.to_nat 43) with 43%nat. change (Z.to_nat 45) with 45%nat. cbn [nth_error app str list_byte_of_string nl].
    rewrite KT. destruct KY; subst y; reflexivity.
  - assert (P : exists n, (1 <= n <= 45)%nat /\ chunk = firstn n (x_magic ver)).
    { exists (length chunk). unfold zlen in L. split; [assert (length chunk <> 0%nat) by (destruct chunk; [congruence|discriminate]); unfold bytes in *; lia|].
      assert (Q : firstn (length chunk) (x_magic ver ++ rest) = firstn (length chunk) (chunk ++ tail)) by (rewrite E; reflexivity).
      assert (LM : length (x_magic ver) = 51%nat) by (rewrite KM; reflexivity).
      rewrite !firstn_app, Nat.sub_diag, firstn_O, app_nil_r, firstn_all in Q. unfold bytes in *.
      replace (length chunk - length (x_magic ver))%nat with 0%nat in Q by lia. rewrite firstn_O, app_nil_r in Q. symmetry. exact Q. }
    destruct P as (n & Hn & ->). rewrite KM. clear - Hn.
    do 46 (destruct n as [|n]; [first [lia|reflexivity]|]). lia.
Qed.
