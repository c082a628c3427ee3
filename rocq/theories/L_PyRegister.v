(** Registering in the Python binding, introspection. *)
From Coq Require Import Lia Permutation Sorted.
From Verif Require Import Base Value Unicode M_Marshal M_Registry M_Python M_PyRegistry S_Value S_Wire S_Python S_Registry S_PyRegistry L_Base L_Dup L_Registry L_Registry3 L_PyText L_PyRead L_Python L_PyRegistry.

Section Register.
  Context {W : Type}.
  Implicit Types (g : pregistry (W:=W)) (r : registration W) (rs : list (registration W)) (w : W).

  (** What a registration becomes. *)
  Definition becomes (r : registration W) (nm : bytes * pmethod (W:=W)) : Prop :=
    same_str (fst nm) (n_name r) /\ ~ In 0 (n_name r) /\ m_kind (snd nm) = n_kind r /\ signature_kept (n_signature r) (m_signature (snd nm)) /\ help_kept (n_help r) (m_help (snd nm)) /\ m_names (snd nm) = n_names r.
  Lemma kept_arg : forall x y, signature_arg (match x with Some x => x | None => PyTuple [] end) = PyOk y -> (forall u, x = Some (PyStr u) -> is_str u) -> signature_kept x y.
  Proof.
    intros [x|] y H S; [|cbn in H; inversion H; constructor]. assert (O : (forall u, x <> PyStr u) -> signature_arg x = PyOk x) by (intro N; destruct x; try reflexivity; exfalso; eapply N; reflexivity).
    assert (D : (exists u, x = PyStr u) \/ (forall u, x <> PyStr u)) by (destruct x; try (right; intros; discriminate); left; eauto).
    destruct D as [[u ->]|D]; [|rewrite (O D) in H; inversion H; subst; apply kept_other; exact D].
    cbn [signature_arg] in H. destruct (encode_str u (S u eq_refl)) as [[U E]|[U E]]; rewrite E in H; [|discriminate H].
    destruct (to_signature (flat_map utf8_char u)) eqn:T; inversion H; subst. apply to_signature_words in T as (l & SW & ->). eapply kept_text; [split; [exact U|reflexivity]|exact SW].
  Qed.
  Lemma registers_sets : forall g rs g', registers g rs g' -> Forall signature_object rs -> exists ms, r_methods g' = set_all (r_methods g) ms /\ Forall2 becomes rs ms /\
    r_pre g' = r_pre g /\ r_post g' = r_post g /\ r_default g' = r_default g /\ r_list g' = r_list g /\ r_help g' = r_help g /\ r_signature g' = r_signature g /\ r_introspection g' = r_introspection g.
  Proof.
    intros g rs g' H. induction H as [g|g r g1 rs g2 IS P H IH]; intro F; [exists []; repeat split; constructor|]. inversion F as [|? ? F1 F2]; subst.
    destruct (IH F2) as (ms & M & B & R). unfold pregister in P.
    destruct (method_arg (n_name r)) as [n|e| |] eqn:EN; try discriminate P. destruct (help_arg (n_help r)) as [h|e| |] eqn:EH; try discriminate P.
    destruct (signature_arg _) as [s|e| |] eqn:ES; try discriminate P. inversion P; subst g1. clear P.
    exists ((n, mkMethod (n_kind r) s h (n_names r)) :: ms). split; [exact M|]. split; [|exact R]. constructor; [|exact B].
    unfold becomes; cbn [fst snd m_kind m_signature m_help m_names]. unfold method_arg in EN. destruct (encode_str _ IS) as [[U E]|[U E]]; rewrite E in EN; [|discriminate EN].
    destruct (existsb _ (n_name r)) eqn:NU; [discriminate EN|]. inversion EN; subst n. split; [split; [exact U|reflexivity]|]. split.
    - intro I0. assert (X : existsb (fun c => c =? 0) (n_name r) = true) by (apply existsb_exists; exists 0; auto). congruence.
    - split; [reflexivity|]. split; [apply kept_arg; [exact ES|exact F1]|]. split; [|reflexivity]. clear - EH. destruct (n_help r) as [[]|]; cbn in EH; inversion EH; constructor.
  Qed.

  Definition start_methods : list (bytes * pmethod (W:=W)) := r_methods (new_pregistry None None true).
  Lemma start_new : forall pre post i, r_methods (new_pregistry (W:=W) pre post i) = start_methods.
  Proof. reflexivity. Qed.
  Lemma start_increasing : increasing start_methods.
  Proof. apply map_set_increasing, map_set_increasing, map_set_increasing, map_set_increasing. exact I. Qed.
  Lemma start_get : forall s k sig, In (s, (k, sig)) new_methods -> exists m l, map_get (str s) start_methods = Some m /\ m_kind m = k /\ to_signature (str sig) = Some (words_object l) /\ m_signature m = words_object l.
  Proof.
    intros s k sig H.
    destruct H as [H|[H|[H|[H|[]]]]]; inversion H; subst; clear H; do 2 eexists;
      (split; [cbv -[b2z to_signature ustr]; reflexivity|]); (split; [reflexivity|]).
    - assert (E : to_signature (str "A:") = Some (words_object [[str "array"]])) by reflexivity. split; [exact E|reflexivity].
    - assert (E : to_signature (str "s:s") = Some (words_object [[str "string"; str "string"]])) by reflexivity. split; [exact E|reflexivity].
    - assert (E : to_signature (str "s:s") = Some (words_object [[str "string"; str "string"]])) by reflexivity. split; [exact E|reflexivity].
    - assert (E : to_signature (str "A:A") = Some (words_object [[str "array"; str "array"]])) by reflexivity. split; [exact E|reflexivity].
  Qed.
  Lemma start_names : map fst start_methods = map (fun x => str (fst x)) (new_methods (W:=W)).
  Proof. vm_compute. reflexivity. Qed.

  Variables (pre : option (W -> pystr -> py -> list py -> option (py * Z) -> W * called)) (post : option (W -> pystr -> py -> list py -> option py -> option py -> option thrown -> W * called)) (i : bool).
  Variables (rs : list (registration W)) (g : pregistry (W:=W)).
  Hypothesis made : registers (new_pregistry pre post i) rs g.
  Hypothesis objects : Forall signature_object rs.

  Lemma made_get : exists ms, Forall2 becomes rs ms /\ (forall name, map_get name (r_methods g) = match last_value name ms with Some x => Some x | None => map_get name start_methods end) /\ increasing (r_methods g).
  Proof.
    destruct (registers_sets _ _ _ made objects) as (ms & M & B & _). exists ms. split; [exact B|]. rewrite M, start_new. split; [|apply set_all_increasing, start_increasing].
    intro name. apply set_all_get, start_increasing.
  Qed.
  Lemma becomes_names : forall l ms name u, Forall2 becomes l ms -> same_str name u -> In name (map fst ms) -> In u (map n_name l).
  Proof.
    intros l ms name u B S. induction B as [|r [n m] l ms R B IH]; intros HI; [contradiction|]. cbn [map fst] in *. destruct HI as [E|HI]; [|right; auto].
    left. destruct R as [SR _]. cbn [fst] in SR. subst n. apply (same_str_fun _ _ _ SR S).
  Qed.
  (** The method of a name is that of its last registration. *)
  Theorem made_last : forall r, last_one rs r -> exists name m, same_str name (n_name r) /\ known g name m /\ becomes r (name, m).
  Proof.
    intros r (b & a & E & NI). destruct made_get as (ms & B & G & _). rewrite E in B. apply Forall2_app_inv_l in B as (mb & ma & Bb & Ba & ->). inversion Ba as [|? [name m] ? ma' BR Ba']; subst.
    exists name, m. destruct BR as [S BR]. cbn [fst] in S. split; [exact S|]. split; [|split; [exact S|exact BR]]. unfold known. rewrite G.
    assert (L : last_value name (mb ++ (name, m) :: ma') = Some m); [|rewrite L; reflexivity]. apply last_value_split. exists mb, ma'. split; [reflexivity|].
    intro HI. apply NI. eapply becomes_names; eassumption.
  Qed.
  Lemma never : forall ms name u, Forall2 becomes rs ms -> same_str name u -> ~ In u (map n_name rs) -> last_value name ms = None.
  Proof. intros ms name u B S N. apply last_value_none. intro HI. apply N. eapply becomes_names; eassumption. Qed.
  Theorem made_system : forall s k sig, In (s, (k, sig)) new_methods -> ~ In (ustr s) (map n_name rs) ->
    exists m l, known g (str s) m /\ m_kind m = k /\ signature_words (str sig) l /\ m_signature m = words_object l.
  Proof.
    intros s k sig HI N. destruct made_get as (ms & B & G & _). destruct (start_get s k sig HI) as (m & l & E & K & T & S). exists m, l. unfold known. rewrite G.
    rewrite (never ms (str s) (ustr s) B) by (try exact N; destruct HI as [H|[H|[H|[H|[]]]]]; inversion H; subst; apply same_ustr; reflexivity).
    split; [exact E|]. split; [exact K|]. split; [|exact S]. apply to_signature_words in T as (l2 & SW & E2).
    assert (l = l2); [|subst; exact SW]. clear - E2. unfold words_object in E2. inversion E2 as [H]. clear E2. revert l2 H. induction l as [|x l IH]; intros [|y l2] H; try discriminate; [reflexivity|]. cbn [map] in H. inversion H as [[H1 H2]]. f_equal; [|apply IH; exact H2].
    clear - H1. revert y H1. induction x as [|a x IH]; intros [|b y] H; try discriminate; [reflexivity|]. cbn [map] in H. inversion H as [[H1 H2]]. f_equal; [|apply IH; exact H2].
    clear - H1. revert b H1. induction a as [|c a IH]; intros [|d b] H; try discriminate; [reflexivity|]. cbn [map] in H. inversion H as [[H1 H2]]. f_equal; [apply b2z_inj; exact H1|apply IH; exact H2].
  Qed.
  Theorem made_unknown : forall name u, same_str name u -> ~ In u (map n_name rs) -> ~ In name (map (fun x => str (fst x)) (new_methods (W:=W))) -> unknown g name.
  Proof.
    intros name u S N1 N2. destruct made_get as (ms & B & G & _). unfold unknown. rewrite G, (never ms name u B S N1). destruct (map_get name start_methods) eqn:E; [|reflexivity].
    exfalso. apply N2. rewrite <- start_names. apply get_key. congruence.
  Qed.
  (** All names, each once. *)
  Lemma increasing_keys : forall A (m : list (bytes * A)), increasing m -> NoDup (map fst m).
  Proof. intros A m H. apply increasing_nodup, H. Qed.
  Theorem made_names : exists us, decoded_names (map fst (r_methods g)) = Some (map PyStr us) /\ NoDup us /\ forall u, In u us <-> In u (map n_name rs) \/ In u (map (fun x => ustr (fst x)) (new_methods (W:=W))).
  Proof.
    destruct made_get as (ms & B & G & INC).
    assert (T : forall name, In name (map fst (r_methods g)) -> exists u, same_str name u /\ (In u (map n_name rs) \/ In u (map (fun x => ustr (fst x)) (new_methods (W:=W))))).
    { intros name HI. apply get_key in HI. rewrite G in HI. destruct (last_value name ms) eqn:E.
      - apply last_value_split in E as (a & b & -> & _). clear - B. revert rs B. induction a as [|x a IH]; intros l B; inversion B as [|r ? l' ? BR B']; subst.
        + exists (n_name r). split; [exact (proj1 BR)|]. left. left. reflexivity.
        + destruct (IH l' B') as (u & S & [H|H]); exists u; split; auto. left. right. exact H.
      - assert (HK : In name (map fst start_methods)) by (apply get_key; exact HI). rewrite start_names in HK. apply in_map_iff in HK as ((s & x) & <- & HN). exists (ustr s).
        split; [|right; apply in_map_iff; exists (s, x); auto]. cbn [fst]. destruct HN as [H|[H|[H|[H|[]]]]]; inversion H; subst; apply same_ustr; reflexivity. }
    assert (D : exists us, Forall2 same_str (map fst (r_methods g)) us /\ decoded_names (map fst (r_methods g)) = Some (map PyStr us)).
    { clear - T. induction (map fst (r_methods g)) as [|n l IH]; [exists []; split; [constructor|reflexivity]|]. destruct (T n (or_introl eq_refl)) as (u & S & _). destruct IH as (us & F & E); [intros; apply T; right; assumption|].
      exists (u :: us). split; [constructor; assumption|]. cbn [decoded_names]. rewrite (decode_same false _ _ S), E. reflexivity. }
    destruct D as (us & F & E). exists us. split; [exact E|]. split.
    - pose proof (increasing_keys _ _ INC) as ND. clear - F ND. induction F as [|n u l us S F IH]; [constructor|]. inversion ND as [|? ? N1 N2]; subst. constructor; [|auto].
      intro HI. apply N1. clear - S F HI. induction F as [|n' u' l us S' F IH]; [contradiction|]. destruct HI as [->|HI]; [left; apply (same_str_inj _ _ _ S' S)|right; auto].
    - intro u. assert (FI : In u us <-> exists n, In n (map fst (r_methods g)) /\ same_str n u).
      { clear - F. induction F as [|n v l us S F IH]; [split; [intros []|intros (n & [] & _)]|]. split.
        - intros [->|H]; [exists n; split; [left; reflexivity|exact S]|]. apply IH in H as (n' & H1 & H2). exists n'. split; [right; exact H1|exact H2].
        - intros (n' & [->|H1] & H2); [left; apply (same_str_fun _ _ _ S H2)|right; apply IH; eauto]. }
      rewrite FI. split.
      + intros (n & HI & S). destruct (T n HI) as (v & SV & HV). rewrite (same_str_fun _ _ _ S SV). exact HV.
      + intros [HI|HI].
        * clear - B HI G. assert (X : exists n m, In (n, m) ms /\ same_str n u).
          { clear - B HI. induction B as [|r [n m] l ms R B IH]; [contradiction|]. destruct HI as [<-|HI]; [exists n, m; split; [left; reflexivity|exact (proj1 R)]|]. destruct (IH HI) as (n' & m' & H1 & H2). exists n', m'. split; [right; exact H1|exact H2]. }
          destruct X as (n & m & HM & S). exists n. split; [|exact S]. apply get_key. rewrite G. destruct (last_value n ms) eqn:E; [discriminate|]. apply last_value_none in E. exfalso. apply E. apply in_map_iff. exists (n, m). auto.
        * apply in_map_iff in HI as ((s & x) & <- & HN). exists (str s). split; [|cbn [fst]; destruct HN as [H|[H|[H|[H|[]]]]]; inversion H; subst; apply same_ustr; reflexivity].
          apply get_key. rewrite G. destruct (last_value (str s) ms); [discriminate|]. apply get_key. rewrite start_names. apply in_map_iff. exists (s, x). auto.
  Qed.
End Register.

(** ** Sorting *)
Lemma str_leb_total : forall a b, str_leb a b = false -> str_leb b a = true.
Proof. induction a as [|x a IH]; intros [|y b] H; cbn [str_leb] in *; try discriminate; try reflexivity. destruct (x <? y) eqn:E1; [discriminate|]. destruct (y <? x) eqn:E2; [reflexivity|]. apply IH, H. Qed.
Definition str_le (a b : pystr) : Prop := str_leb a b = true.
Lemma insert_perm : forall x l, Permutation (x :: l) (insert_str x l).
Proof. intros x l. induction l as [|y l IH]; cbn [insert_str]; [reflexivity|]. destruct (str_leb x y); [reflexivity|]. rewrite perm_swap. constructor. exact IH. Qed.
Lemma sort_perm : forall l, Permutation l (sort_strs l).
Proof. induction l as [|x l IH]; [constructor|]. cbn [sort_strs fold_right]. rewrite <- insert_perm. constructor. exact IH. Qed.
Lemma insert_sorted : forall x l, LocallySorted str_le l -> LocallySorted str_le (insert_str x l).
Proof.
  intros x l H. induction H as [|y|y z l H IH HL]; cbn [insert_str].
  - constructor.
  - destruct (str_leb x y) eqn:E; constructor; try constructor; [exact E|apply str_leb_total, E].
  - destruct (str_leb x y) eqn:E; [constructor; [constructor; assumption|exact E]|]. cbn [insert_str] in IH. destruct (str_leb x z) eqn:E2.
    + constructor; [constructor; assumption|]. apply str_leb_total, E.
    + constructor; [exact IH|exact HL].
Qed.
Lemma sort_sorted : forall l, LocallySorted str_le (sort_strs l).
Proof. induction l as [|x l IH]; [constructor|]. apply insert_sorted, IH. Qed.
Lemma all_strs_map : forall l, all_strs (map PyStr l) = Some l.
Proof. induction l as [|x l IH]; [reflexivity|]. cbn [map all_strs]. rewrite IH. reflexivity. Qed.
