(** Lemmas about introspection. *)
From Coq Require Import Lia.
From Verif Require Import Base Value Text M_Marshal M_BinUnmarshal M_TreeBuilder M_Values M_Base64 M_Json M_Iso M_Url M_Xml M_Registry
  S_Value S_Wire S_Registry L_Base L_Dup L_Registry.

Section Registry.
  Context {W : Type}.
  Variable message : exn -> bytes.
  Implicit Types (g : registry (W:=W)) (w : W) (regs : list (bytes * entry (W:=W))).

  Definition builtins : list (bytes * entry (W:=W)) :=
    [ (str "system.listMethods", mkEntry List_methods (str "A:") (str "List all registered methods"));
      (str "system.methodHelp", mkEntry Method_help (str "s:s") (str "Return given method help"));
      (str "system.methodSignature", mkEntry Method_signature (str "A:s") (str "Return given method signature"));
      (str "system.multicall", mkEntry Multicall (str "A:A") (str "Call given methods")) ].

  Lemma with_methods_all regs : g_methods (with_methods regs) = set_all [] (builtins ++ regs) /\ g_default (with_methods regs) = None.
  Proof.
    unfold with_methods, set_all. rewrite fold_left_app.
    change (fold_left _ builtins []) with (g_methods (new_registry (W:=W) true)).
    change (@None (W -> bytes -> list value -> W * res value)) with (g_default (new_registry (W:=W) true)).
    generalize (new_registry (W:=W) true). induction regs as [|[n e] regs IH]; intro g; cbn [fold_left fst snd]; [split; reflexivity|].
    destruct (IH (register n e g)) as [H1 H2]. rewrite H1, H2. split; reflexivity.
  Qed.

  Lemma last_value_split {A} (l : list (bytes * A)) k x :
    last_value k l = Some x <-> exists a b, l = a ++ (k, x) :: b /\ ~ In k (map fst b).
  Proof.
    unfold last_value. split.
    - revert x. induction l as [|[k0 y] l IH] using rev_ind; intros x H; [discriminate|].
      rewrite rev_app_distr in H. cbn [rev app find fst snd] in H. destruct (bytes_eqb k k0) eqn:E.
      + apply bytes_eqb_eq in E. inversion H; subst. exists l, []. split; [reflexivity|intros []].
      + destruct (IH x H) as (a & b & -> & HN). exists a, (b ++ [(k0, y)]). rewrite <- app_assoc. split; [reflexivity|].
        rewrite map_app. intro HI. apply in_app_or in HI as [HI|HI]; [contradiction|]. destruct HI as [HI|[]]. cbn in HI. subst.
        rewrite bytes_eqb_refl in E. discriminate.
    - intros (a & b & -> & HN). rewrite rev_app_distr. cbn [rev]. rewrite <- app_assoc, find_app.
      destruct (find (fun kv => bytes_eqb k (fst kv)) (rev b)) as [[k1 z]|] eqn:E.
      + apply find_some in E as [HI HE]. cbn in HE. apply bytes_eqb_eq in HE. subst k1. elim HN.
        apply in_rev in HI. apply (in_map fst) in HI. exact HI.
      + cbn [app find fst snd]. rewrite bytes_eqb_refl. reflexivity.
  Qed.

  Lemma last_value_none {A} (l : list (bytes * A)) k : last_value k l = None <-> ~ In k (map fst l).
  Proof.
    unfold last_value. split.
    - intros H HI. destruct (find _ _) as [|] eqn:E in H; [discriminate|]. apply in_map_iff in HI as ((k1 & y) & <- & HI).
      apply in_rev in HI. pose proof (find_none _ _ E _ HI) as H1. cbn in H1. rewrite bytes_eqb_refl in H1. discriminate.
    - intro HN. destruct (find _ _) as [[k1 y]|] eqn:E; [|reflexivity]. apply find_some in E as [HI HE]. cbn in HE. apply bytes_eqb_eq in HE. subst.
      elim HN. apply in_rev in HI. apply (in_map fst) in HI. exact HI.
  Qed.

  Lemma get_with regs name : map_get name (g_methods (with_methods regs)) = last_value name (builtins ++ regs).
  Proof.
    destruct (with_methods_all regs) as [-> _]. rewrite set_all_get by exact I. destruct (last_value name (builtins ++ regs)); reflexivity.
  Qed.

  Lemma described_get regs name sig help : described regs name sig help <->
    exists h, registered (with_methods regs) name (mkEntry h sig help).
  Proof.
    unfold described, registered. setoid_rewrite get_with.
    assert (HM : system_methods ++ map (fun ne => (fst ne, (e_signature (snd ne), e_help (snd ne)))) regs
                 = map (fun ne => (fst ne, (e_signature (snd ne), e_help (snd ne)))) (builtins ++ regs)) by (rewrite map_app; reflexivity).
    rewrite HM. generalize (builtins ++ regs) as l. intro l. split.
    - intros (a & b & HE & HN).
      assert (HS : exists a' e b', l = a' ++ (name, e) :: b' /\ e_signature e = sig /\ e_help e = help /\ map fst b' = map fst b).
      { clear HN HM. revert a HE. induction l as [|[k e] l IH]; intros [|x a] HE; cbn [map app fst snd] in HE; try discriminate.
        - inversion HE; subst. exists [], e, l. repeat split. rewrite map_map. reflexivity.
        - injection HE as HE1 HE2. destruct (IH a HE2) as (a' & e' & b' & -> & ? & ? & ?). exists ((k, e) :: a'), e', b'. auto. }
      destruct HS as (a' & e & b' & HL & <- & <- & HF). exists (e_handler e). apply last_value_split. exists a', b'.
      destruct e. rewrite HF. auto.
    - intros (h & H). apply last_value_split in H as (a & b & -> & HN). exists (map (fun ne => (fst ne, (e_signature (snd ne), e_help (snd ne)))) a).
      exists (map (fun ne => (fst ne, (e_signature (snd ne), e_help (snd ne)))) b). rewrite map_app. split; [reflexivity|]. rewrite map_map. exact HN.
  Qed.

  Lemma builtin_registered regs name e : In (name, e) builtins -> ~ In name (map fst regs) -> registered (with_methods regs) name e.
  Proof.
    intros HI HN. unfold registered. rewrite get_with. apply last_value_split.
    destruct HI as [E|[E|[E|[E|[]]]]]; inversion E; subst.
    - exists [], (tl builtins ++ regs). split; [reflexivity|]. rewrite map_app. intro H. apply in_app_or in H as [H|H]; [|contradiction]. cbn in H. intuition discriminate.
    - exists (firstn 1 builtins), (tl (tl builtins) ++ regs). split; [reflexivity|]. rewrite map_app. intro H. apply in_app_or in H as [H|H]; [|contradiction]. cbn in H. intuition discriminate.
    - exists (firstn 2 builtins), (tl (tl (tl builtins)) ++ regs). split; [reflexivity|]. rewrite map_app. intro H. apply in_app_or in H as [H|H]; [|contradiction]. cbn in H. intuition discriminate.
    - exists (firstn 3 builtins), regs. split; [reflexivity|]. exact HN.
  Qed.

  Lemma names_with regs : increasing (g_methods (with_methods regs)).
  Proof. destruct (with_methods_all regs) as [-> _]. apply set_all_increasing. exact I. Qed.

  Lemma get_key {A} (m : list (bytes * A)) k : In k (map fst m) <-> map_get k m <> None.
  Proof.
    induction m as [|[k0 y] m IH]; cbn [map fst map_get In]; [split; [intros []|congruence]|].
    destruct (bytes_cmp k k0) eqn:E.
    - apply bytes_cmp_eq in E. subst. split; [congruence|auto].
    - rewrite <- IH. split; [intros [->|H]|]; auto. rewrite bytes_cmp_refl in E. discriminate.
    - rewrite <- IH. split; [intros [->|H]|]; auto. rewrite bytes_cmp_refl in E. discriminate.
  Qed.

  Lemma names_complete regs name : In name (map fst (g_methods (with_methods regs))) <-> In name (map fst (system_methods)) \/ In name (map fst regs).
  Proof.
    rewrite get_key, get_with.
    change (map fst system_methods) with (map fst builtins). rewrite <- in_app_iff, <- map_app.
    destruct (last_value name (builtins ++ regs)) eqn:E.
    - split; [|congruence]. intros _. apply last_value_split in E as (a & b & -> & _). rewrite map_app. apply in_or_app. right. left. reflexivity.
    - split; [congruence|]. apply last_value_none in E. contradiction.
  Qed.
End Registry.

(** ** Signatures *)
Lemma word_of c w : type_word c = Some w <-> letter_word c w.
Proof.
  split.
  - destruct c; intro H; try discriminate; cbv in H; inversion H; constructor.
  - intros []; reflexivity.
Qed.
Lemma word_none c : type_word c = None <-> forall w, ~ letter_word c w.
Proof.
  split.
  - intros H w HL. apply word_of in HL. congruence.
  - intro H. destruct (type_word c) eqn:E; [|reflexivity]. apply word_of in E. elim (H _ E).
Qed.

Lemma signature_last : forall s ws cur, ~ In x2c s -> letter_words s ws -> signature_arrays cur s = [VArray (cur ++ map VString ws)].
Proof.
  intros s ws cur HN H. revert cur HN. induction H; intros cur HN; [cbn; rewrite app_nil_r; reflexivity| |].
  - assert (HC : b2z c =? 44 = false). { apply Z.eqb_neq. intro HC. apply HN. left. apply b2z_inj. exact HC. }
    cbn [signature_arrays]. rewrite HC. apply word_of in H. rewrite H. rewrite IHletter_words by (intro HI; apply HN; right; assumption).
    cbn [map]. rewrite <- app_assoc. reflexivity.
  - assert (HC : b2z c =? 44 = false). { apply Z.eqb_neq. intro HC. apply HN. left. apply b2z_inj. exact HC. }
    cbn [signature_arrays]. rewrite HC. apply word_none in H. rewrite H. apply IHletter_words. intro HI; apply HN; right; assumption.
Qed.
Lemma signature_more : forall s ws cur rest, ~ In x2c s -> letter_words s ws ->
  signature_arrays cur (s ++ x2c :: rest) = VArray (cur ++ map VString ws) :: signature_arrays [] rest.
Proof.
  intros s ws cur rest HN H. revert cur HN. induction H; intros cur HN; [cbn; rewrite app_nil_r; reflexivity| |].
  - assert (HC : b2z c =? 44 = false). { apply Z.eqb_neq. intro HC. apply HN. left. apply b2z_inj. exact HC. }
    cbn [signature_arrays app]. rewrite HC. apply word_of in H. rewrite H. rewrite IHletter_words by (intro HI; apply HN; right; assumption).
    cbn [map]. rewrite <- app_assoc. reflexivity.
  - assert (HC : b2z c =? 44 = false). { apply Z.eqb_neq. intro HC. apply HN. left. apply b2z_inj. exact HC. }
    cbn [signature_arrays app]. rewrite HC. apply word_none in H. rewrite H. apply IHletter_words. intro HI; apply HN; right; assumption.
Qed.
Lemma words_total : forall s, exists ws, letter_words s ws.
Proof.
  induction s as [|c s (ws & IH)]; [eexists; constructor|]. destruct (type_word c) eqn:E.
  - apply word_of in E. eexists. eapply words_letter; eassumption.
  - pose proof (proj1 (word_none c) E). eexists. eapply words_other; eassumption.
Qed.
Lemma parts_total : forall s, exists l, comma_parts s l.
Proof.
  induction s as [|c s (l & IH)]; [exists [[]]; constructor; intros []|].
  destruct (Z.eq_dec (b2z c) 44) as [E|E].
  - assert (c = x2c) by (apply b2z_inj; exact E). subst. exists ([] :: l). apply (parts_more []); [intros []|assumption].
  - assert (HC : c <> x2c) by (intro; subst; apply E; reflexivity). destruct IH as [s HN|s rest l HN HP].
    + exists [c :: s]. constructor. intros [H|H]; congruence.
    + exists ((c :: s) :: l). apply (parts_more (c :: s)); [|assumption]. intros [H|H]; congruence.
Qed.
Lemma signature_parts : forall s parts, comma_parts s parts -> forall words, Forall2 letter_words parts words ->
  signature_arrays [] s = map (fun ws => VArray (map VString ws)) words.
Proof.
  induction 1 as [s HN|s rest l HN HP IH]; intros words HF; inversion HF; subst; clear HF.
  - match goal with H : Forall2 _ [] _ |- _ => inversion H; subst end. cbn [map]. rewrite (signature_last s y []); auto.
  - cbn [map]. rewrite (signature_more s y); auto. cbn [app]. f_equal. apply IH. assumption.
Qed.
