(** A parser that reports a document as soon as it is complete: what S_XmlUm.v expects of a parser can be met. *)
From Coq Require Import Lia.
From Verif Require Import Base Value Text M_Marshal M_BinUnmarshal M_TreeBuilder M_Xml M_XmlUm S_Value S_Xml S_Http S_XmlUm L_Base L_Text L_Xml.

Definition at_once : parser :=
  mkParser (bytes * bool) ([], false)
    (fun s d => match d with
                | [] => (s, [], if snd s then 0 else 5)
                | _ => if snd s then ((fst s ++ d, true), [], 0)
                       else match xml_doc (fst s ++ d) with
                            | Some doc => ((fst s ++ d, true), doc, 0)
                            | None => ((fst s ++ d, false), [], 0)
                            end
                end).

Lemma eol_prefix : forall a b, exists b', eol (a ++ b) = eol a ++ b'.
Proof.
  induction a as [|c a IH]; intros b; [eexists; reflexivity|]. destruct (IH b) as (b' & E). cbn [app eol]. destruct (b2z c =? 13).
  - destruct a as [|d a]; [|cbn [app] in *; destruct (b2z d =? 10); rewrite E; eexists; reflexivity].
    cbn [app]. destruct b as [|d b]; [exists []; reflexivity|]. destruct (b2z d =? 10) eqn:ED; [|exists (eol (d :: b)); reflexivity].
    apply Z.eqb_eq in ED. change 10 with (b2z x0a) in ED. apply b2z_inj in ED. subst d. exists (eol b). reflexivity.
  - rewrite E. eexists. reflexivity.
Qed.
Lemma tok_app : forall a stk seen m b d, xtok stk seen m a = Some d -> xtok stk seen m (a ++ b) = option_map (app d) (xtok [] true LText b).
Proof.
  assert (MM : forall e d1 x, more e (option_map (app d1) x) = option_map (app (e :: d1)) x) by (intros e d1 [x|]; reflexivity).
  induction a as [|c a IH]; intros stk seen m b d H.
  - cbn [app]. destruct m, stk; try discriminate. cbn in H. destruct seen; inversion H; subst. destruct (xtok [] true LText b); reflexivity.
  - cbn [app]. destruct m as [|acc|acc]; cbn [xtok] in *.
    + destruct (b2z c =? 60); [apply IH; assumption|]. destruct stk as [|n stk]; [destruct (white c); [apply IH; assumption|discriminate]|].
      destruct (b2z c =? 38); [apply IH; assumption|]. destruct (b2z c =? 62); [discriminate|].
      match type of H with more _ ?r = _ => destruct r as [d1|] eqn:E1; [|discriminate] end; inversion H; subst; rewrite (IH _ _ _ b _ E1); apply MM.
    + destruct (b2z c =? 62); [|apply IH; assumption]. destruct (markup (rev acc)) as [n|n|n| | |].
      * destruct stk as [|t stk]; [destruct seen; [discriminate|]|];
          (match type of H with more _ ?r = _ => destruct r as [d1|] eqn:E1; [|discriminate] end; inversion H; subst; rewrite (IH _ _ _ b _ E1); apply MM).
      * destruct stk as [|t stk]; [destruct seen; [discriminate|]|];
          (match type of H with more _ (more _ ?r) = _ => destruct r as [d1|] eqn:E1; [|discriminate] end; inversion H; subst; rewrite (IH _ _ _ b _ E1); rewrite !MM; reflexivity).
      * destruct stk as [|t stk]; [discriminate|]. destruct (bytes_eqb n t); [|discriminate].
        match type of H with more _ ?r = _ => destruct r as [d1|] eqn:E1; [|discriminate] end; inversion H; subst; rewrite (IH _ _ _ b _ E1); apply MM.
      * apply IH; assumption.
      * apply IH; assumption.
      * discriminate.
    + destruct (b2z c =? 59); [|apply IH; assumption]. destruct (entity (rev acc)); [|discriminate].
      match type of H with more _ ?r = _ => destruct r as [d1|] eqn:E1; [|discriminate] end; inversion H; subst; rewrite (IH _ _ _ b _ E1); apply MM.
Qed.
Lemma tok_after : forall b m d, (m = LText \/ exists acc, m = LTag acc) -> xtok [] true m b = Some d -> d = [].
Proof.
  induction b as [|c b IH]; intros m d HM H.
  - destruct HM as [->|(acc & ->)]; cbn in H; [inversion H; reflexivity|discriminate].
  - destruct HM as [->|(acc & ->)]; cbn [xtok] in H.
    + destruct (b2z c =? 60); [eapply IH; [|exact H]; eauto|]. destruct (white c); [eapply IH; [|exact H]; eauto|discriminate].
    + destruct (b2z c =? 62); [|eapply IH; [|exact H]; eauto]. destruct (markup (rev acc)); try discriminate; eapply IH; try exact H; eauto.
Qed.
Lemma decl_prefix : forall n, (n < List.length xml_decl)%nat -> xtok [] false LText (firstn n xml_decl) = None.
Proof.
  intros n H. assert (HB : forallb (fun k => match xtok [] false LText (firstn k xml_decl) with None => true | Some _ => false end) (seq 0 (List.length xml_decl)) = true) by (vm_compute; reflexivity).
  rewrite forallb_forall in HB. specialize (HB n). destruct (xtok [] false LText (firstn n xml_decl)); [|reflexivity].
  discriminate HB. apply in_seq. lia.
Qed.
Lemma decl_app : forall a b d, xtok [] false LText (after_decl a) = Some d -> after_decl (a ++ b) = after_decl a ++ b.
Proof.
  intros a b d H. unfold after_decl in *. set (k := List.length xml_decl) in *. destruct (Nat.le_gt_cases k (List.length a)) as [L|L].
  - rewrite firstn_app, skipn_app. replace (k - List.length a)%nat with 0%nat by lia. rewrite firstn_O, app_nil_r. cbn [skipn]. destruct (bytes_eqb (firstn k a) xml_decl); reflexivity.
  - rewrite (firstn_all2 a) in * by lia. destruct (bytes_eqb a xml_decl) eqn:EA; [apply bytes_eqb_eq in EA; subst a; unfold k in L; lia|].
    destruct (bytes_eqb (firstn k (a ++ b)) xml_decl) eqn:E; [|reflexivity]. apply bytes_eqb_eq in E. exfalso.
    assert (EP : a = firstn (List.length a) xml_decl).
    { rewrite <- E. rewrite firstn_firstn. replace (Nat.min (List.length a) k) with (List.length a) by lia. rewrite firstn_app, Nat.sub_diag, firstn_O, app_nil_r, firstn_all. reflexivity. }
    rewrite EP in H. rewrite decl_prefix in H by exact L. discriminate.
Qed.
Lemma doc_prefix : forall a b d1 d2, xml_doc a = Some d1 -> xml_doc (a ++ b) = Some d2 -> d1 = d2.
Proof.
  intros a b d1 d2 H1 H2. unfold xml_doc in *. destruct (urun U0 a) as [[]|]; try discriminate. destruct (urun U0 (a ++ b)) as [[]|]; try discriminate.
  destruct (eol_prefix a b) as (b' & E). rewrite E, (decl_app _ _ _ H1), (tok_app _ _ _ _ _ _ H1) in H2.
  destruct (xtok [] true LText b') as [d|] eqn:E2; [|discriminate]. inversion H2; subst. rewrite (tok_after _ _ _ (or_introl eq_refl) E2), app_nil_r. reflexivity.
Qed.

Lemma at_once_done : forall pieces acc, Forall (fun p => p <> []) pieces ->
  exists batches s, reports at_once (acc, true) pieces batches (s, true) /\ concat batches = [] /\ List.length batches = List.length pieces.
Proof.
  induction pieces as [|d pieces IH]; intros acc HP.
  - exists [], acc. repeat split; constructor.
  - inversion HP as [|? ? HD HR]; subst. destruct (IH (acc ++ d) HR) as (batches & s & R & C & L). exists ([] :: batches), s. split; [|split; cbn; congruence].
    eapply reports_piece; [|exact R]. cbn. destruct d; [congruence|reflexivity].
Qed.
Lemma at_once_reports : forall pieces acc doc, Forall (fun p => p <> []) pieces -> xml_doc acc = None -> xml_doc (acc ++ concat pieces) = Some doc ->
  exists batches s, reports at_once (acc, false) pieces batches (s, true) /\ concat batches = doc /\ List.length batches = List.length pieces.
Proof.
  induction pieces as [|d pieces IH]; intros acc doc HP HN HD.
  - cbn in HD. rewrite app_nil_r in HD. congruence.
  - inversion HP as [|? ? HDN HR]; subst. cbn [concat] in HD. rewrite app_assoc in HD.
    destruct (xml_doc (acc ++ d)) as [d1|] eqn:E.
    + pose proof (doc_prefix _ _ _ _ E HD). subst d1. destruct (at_once_done pieces (acc ++ d) HR) as (batches & s & R & C & L).
      exists (doc :: batches), s. split; [|split; cbn; [rewrite C, app_nil_r; reflexivity|congruence]].
      eapply reports_piece; [|exact R]. cbn. destruct d; [congruence|]. unfold bytes in *. rewrite E. reflexivity.
    + destruct (IH _ _ HR E HD) as (batches & s & R & C & L). exists ([] :: batches), s. split; [|split; cbn; congruence].
      eapply reports_piece; [|exact R]. cbn. destruct d; [congruence|]. unfold bytes in *. rewrite E. reflexivity.
Qed.
Lemma at_once_faithful : faithful at_once.
Proof.
  intros text doc pieces HD [HC HP]. destruct (at_once_reports pieces [] doc) as (batches & s & R & C & L); [exact HP|reflexivity|cbn [app]; congruence|].
  exists batches, (s, true), (s, true), []. split; [exact R|]. split; [reflexivity|]. unfold delivery.
  assert (MF : map fst (combine pieces batches) = pieces /\ map snd (combine pieces batches) = batches).
  { clear - L. revert batches L. induction pieces as [|p pieces IH]; intros [|b bs] L; try discriminate; [split; reflexivity|]. destruct (IH bs) as [A B]; [cbn in L; congruence|]. cbn. split; congruence. }
  destruct MF as [M1 M2]. split; [rewrite M1; exact HC|]. split.
  - intros p HI. rewrite Forall_forall in HP. apply HP. rewrite <- M1. apply in_map. exact HI.
  - split; [|cbn; tauto]. exists doc. split; [exact HD|]. rewrite M2, app_nil_r, C. reflexivity.
Qed.

(** It is orderly, too. *)
Lemma tok_nested : forall s stk seen m d, xtok stk seen m s = Some d -> nested_sax stk d.
Proof.
  induction s as [|c s IH]; intros stk seen m d H.
  - destruct m, stk; try discriminate. cbn in H. destruct seen; inversion H; subst. exact I.
  - assert (MORE : forall e r, more e r = Some d -> exists d', r = Some d' /\ d = e :: d') by (intros e [r|] Q; inversion Q; eauto).
    destruct m as [|acc|acc]; cbn [xtok] in H.
    + destruct (b2z c =? 60); [eapply IH; exact H|]. destruct stk as [|n stk]; [destruct (white c); [eapply IH; exact H|discriminate]|].
      destruct (b2z c =? 38); [eapply IH; exact H|]. destruct (b2z c =? 62); [discriminate|].
      apply MORE in H as (d' & H & ->). cbn [nested_sax]. eapply IH. exact H.
    + destruct (b2z c =? 62); [|eapply IH; exact H]. destruct (markup (rev acc)) as [n|n|n| | |].
      * destruct stk as [|t stk]; [destruct seen; [discriminate|]|]; apply MORE in H as (d' & H & ->); cbn [nested_sax]; eapply IH; exact H.
      * destruct stk as [|t stk]; [destruct seen; [discriminate|]|]; apply MORE in H as (d' & H & ->);
          (destruct (xtok _ _ _ s) as [d2|] eqn:E2; [|discriminate]; inversion H; subst; cbn [nested_sax]; split; [reflexivity|]; eapply IH; exact E2).
      * destruct stk as [|t stk]; [discriminate|]. destruct (bytes_eqb n t) eqn:EN; [|discriminate]. apply bytes_eqb_eq in EN. subst t.
        apply MORE in H as (d' & H & ->). cbn [nested_sax]. split; [reflexivity|]. eapply IH. exact H.
      * eapply IH; exact H.
      * eapply IH; exact H.
      * discriminate.
    + destruct (b2z c =? 59); [|eapply IH; exact H]. destruct (entity (rev acc)); [|discriminate].
      apply MORE in H as (d' & H & ->). cbn [nested_sax]. eapply IH. exact H.
Qed.
Lemma doc_nested : forall s d, xml_doc s = Some d -> nested_sax [] d.
Proof. intros s d H. unfold xml_doc in H. destruct (urun U0 s) as [[]|]; try discriminate. eapply tok_nested. exact H. Qed.

Lemma at_once_orderly : orderly at_once.
Proof.
  assert (ONE : forall s d s' batch code, ps_take at_once s d = (s', batch, code) ->
            (code < 102 \/ 816 <= code) /\ nested_sax [] batch /\ (snd s = true -> batch = [] /\ snd s' = true) /\ (batch <> [] -> snd s' = true)).
  { intros s d s' batch code H. cbn [at_once ps_take] in H. destruct d as [|c d].
    - inversion H; subst. split; [destruct (snd s'); lia|]. split; [exact I|]. split; [auto|congruence].
    - destruct (snd s) eqn:ES; [inversion H; subst; split; [lia|]; split; [exact I|]; split; [auto|congruence]|].
      destruct (xml_doc (fst s ++ c :: d)) as [doc|] eqn:ED; inversion H; subst; (split; [lia|]).
      + split; [eapply doc_nested; exact ED|]. split; [discriminate|reflexivity].
      + split; [exact I|]. split; [discriminate|congruence]. }
  assert (ALL : forall s pieces batches s', reports at_once s pieces batches s' ->
            nested_sax [] (concat batches) /\ (snd s = true -> concat batches = [] /\ snd s' = true) /\ (snd s = false -> concat batches <> [] -> snd s' = true)).
  { intros s pieces batches s' H. induction H as [s|s d s1 batch pieces batches s2 HT HR IH].
    - split; [exact I|]. split; [auto|]. intros _ Q. exfalso. apply Q. reflexivity.
    - destruct (ONE _ _ _ _ _ HT) as (_ & N & A & B). destruct IH as (N2 & A2 & B2). cbn [concat]. destruct (snd s1) eqn:E1.
      + destruct (A2 eq_refl) as [E2 E3]. rewrite E2, app_nil_r. split; [exact N|]. split; [|auto]. intro Q. destruct (A Q). auto.
      + assert (EB : batch = []) by (destruct batch; [reflexivity|discriminate (B ltac:(discriminate))]). subst batch. cbn [app].
        split; [exact N2|]. split; [intro Q; destruct (A Q); congruence|]. intros _. auto. }
  intros pieces batches s d s' batch code HR HT. destruct (ALL _ _ _ _ HR) as (N & _ & B). destruct (ONE _ _ _ _ _ HT) as (C & N2 & A2 & _).
  split; [|exact C]. destruct (concat batches) as [|e b] eqn:EB; [exact N2|].
  destruct (A2 (B eq_refl ltac:(discriminate))) as [-> _]. rewrite app_nil_r. exact N.
Qed.
