(** The strings within what the builder of the Python module has built are strings of Python. *)
From Coq Require Import Lia.
From Verif Require Import Base Value Unicode M_Marshal M_BinUnmarshal M_Iso M_Url M_Http M_Xml M_XmlUm M_Registry M_Python M_PyRegistry M_PyServer S_Url S_Http S_Server S_Python S_PyRegistry S_PyServer L_Base L_PyText L_PyRegistry.

Lemma strs_list : forall l, strs (PyList l) <-> Forall strs l.
Proof. cbn [strs]. induction l as [|x l IH]; [split; constructor|]. rewrite IH. split; [intros []; constructor; auto|intro H; inversion H; auto]. Qed.
Lemma strs_tuple : forall l, strs (PyTuple l) <-> Forall strs l.
Proof. exact strs_list. Qed.
Lemma strs_dict : forall m, strs (PyDict m) <-> Forall (fun kv => strs (fst kv) /\ strs (snd kv)) m.
Proof. cbn [strs]. induction m as [|[k x] m IH]; [split; constructor|]. rewrite IH. split; [intros (A & B & C); constructor; auto|intro H; inversion H as [|? ? [] ?]; auto]. Qed.

Lemma cont_in : forall b lo hi, cont b lo hi = true -> lo <= b2z b <= hi.
Proof. intros b lo hi H. unfold cont in H. apply andb_true_iff in H as [A B]. lia. Qed.
Lemma decode_is_str : forall n pass s u, (List.length s <= n)%nat -> py_decode pass s = Some u -> is_str u.
Proof.
  induction n as [|n IH]; intros pass [|a r] u L H; try (cbn in H; inversion H; constructor); [cbn in L; lia|]. cbn [py_decode] in H. cbn [List.length] in L.
  assert (GO : forall c r' , 0 <= c < 1114112 -> (List.length r' <= n)%nat -> option_map (cons c) (py_decode pass r') = Some u -> is_str u).
  { intros c r' C L' E. destruct (py_decode pass r') as [v|] eqn:D; [|discriminate]. inversion E; subst. constructor; [exact C|exact (IH pass r' v L' D)]. }
  pose proof (b2z_range a). destruct (Z.ltb_spec (b2z a) 128); [eapply GO; [| |exact H]; lia|].
  destruct (_ && _) eqn:E2 in H.
  { destruct r as [|b r]; [discriminate|]. destruct (cont b 128 191) eqn:C; [|discriminate]. apply cont_in in C. apply andb_true_iff in E2 as [? ?]. cbn [List.length] in L. eapply GO; [| |exact H]; lia. }
  destruct (_ && _) eqn:E3 in H.
  { destruct r as [|b [|c r]]; try discriminate. destruct (cont b _ _ && _) eqn:C; [|discriminate]. apply andb_true_iff in C as [C1 C2]. apply cont_in in C1, C2. apply andb_true_iff in E3 as [? ?]. cbn [List.length] in L.
    assert (128 <= b2z b <= 191) by (destruct (b2z a =? 224); destruct ((b2z a =? 237) && negb pass); lia). eapply GO; [| |exact H]; lia. }
  destruct (_ && _) eqn:E4 in H; [|discriminate].
  destruct r as [|b [|c [|d r]]]; try discriminate. destruct (cont b _ _ && _ && _) eqn:C; [|discriminate]. apply andb_true_iff in C as [C1 C3]. apply andb_true_iff in C1 as [C1 C2]. apply cont_in in C1, C2, C3. apply andb_true_iff in E4 as [? ?]. cbn [List.length] in L.
  assert (128 <= b2z b <= (if b2z a =? 244 then 143 else 191)) by (destruct (b2z a =? 240); destruct (b2z a =? 244); lia).
  eapply GO; [| |exact H]; [|lia]. destruct (Z.eqb_spec (b2z a) 244); lia.
Qed.

Definition body_ok (c : pbody) : Prop := match c with PB_list l => Forall strs l | PB_dict m => Forall (fun kv => is_str (fst kv) /\ strs (snd kv)) m end.
Definition link_ok (k : plink) : Prop := match k with L_member u => is_str u | _ => True end.
Definition frame_ok (f : plink * pbody) : Prop := link_ok (fst f) /\ body_ok (snd f).
Definition pb_ok (b : pb) : Prop := Forall frame_ok (pb_stack b) /\ match pb_root b with P_done v => strs v | _ => True end.

Lemma init_ok : pb_ok pb_init.
Proof. split; [constructor|exact I]. Qed.
Lemma fail_ok : forall b, pb_ok b -> pb_ok (pb_fail b).
Proof. intros b [S R]. split; [exact S|exact I]. Qed.
Lemma dict_set_ok : forall k v m, is_str k -> strs v -> Forall (fun kv : pystr * py => is_str (fst kv) /\ strs (snd kv)) m -> Forall (fun kv => is_str (fst kv) /\ strs (snd kv)) (dict_set k v m).
Proof.
  intros k v m K V F. induction F as [|[q x] m [A B] F IH]; [constructor; [split; assumption|constructor]|]. cbn [dict_set]. destruct (pystr_eqb _ _); constructor; auto.
Qed.
Lemma key_ok : forall name k, key_of name = Some k -> is_str k.
Proof.
  intros name k. unfold key_of. destruct (existsb _ _); intro H; [exact (decode_is_str _ _ _ _ (le_n _) H)|]. inversion H. apply Forall_map, Forall_forall. intros c _. pose proof (b2z_range c). lia.
Qed.
Lemma link_fine : forall b k, link_of b = Some k -> link_ok k.
Proof.
  intros b k H. unfold link_of in H. destruct (pb_stack b) as [|[? []] ?]; [destruct (pb_first b); inversion H; exact I|inversion H; exact I|].
  destruct (key_of (pb_member b)) as [u|] eqn:E; [|discriminate]. inversion H. exact (key_ok _ _ E).
Qed.
Lemma body_value : forall c, body_ok c -> strs (pb_value_of c).
Proof.
  intros [l|m] H; [exact (proj2 (strs_list l) H)|]. apply strs_dict. apply Forall_map. exact H.
Qed.
Lemma item_ok : forall v c, strs v -> body_ok c -> body_ok (add_item v c).
Proof. intros v [l|m] V H; [apply Forall_app; split; [exact H|constructor; [exact V|constructor]]|exact H]. Qed.
Lemma member_ok : forall k v c, is_str k -> strs v -> body_ok c -> body_ok (add_member k v c).
Proof. intros k v [l|m] K V H; [exact H|apply dict_set_ok; assumption]. Qed.
Lemma place_ok : forall k v b, link_ok k -> strs v -> pb_ok b -> pb_ok (place k v b).
Proof.
  intros k v b K V [S R]. unfold place. destruct k; [split; [exact S|exact V]| | |split; assumption].
  - destruct (pb_stack b) as [|[l c] r] eqn:E; [split; [rewrite E; constructor|exact R]|]. inversion S as [|? ? [L C] F]; subst. split; [constructor; [split; [exact L|apply item_ok; assumption]|assumption]|exact R].
  - destruct (pb_stack b) as [|[l c] r] eqn:E; [split; [rewrite E; constructor|exact R]|]. inversion S as [|? ? [L C] F]; subst. split; [constructor; [split; [exact L|apply member_ok; assumption]|assumption]|exact R].
Qed.
Lemma value_ok : forall v b, strs v -> pb_ok b -> pb_ok (pb_value v b).
Proof. intros v b V H. unfold pb_value. destruct (pb_error b); [exact H|]. destruct (link_of b) eqn:E; [apply place_ok; [exact (link_fine _ _ E)|exact V|exact H]|apply fail_ok; exact H]. Qed.
Lemma open_ok : forall c b, body_ok c -> pb_ok b -> pb_ok (pb_open c b).
Proof.
  intros c b C H. unfold pb_open. destruct (pb_error b); [exact H|]. destruct (link_of b) as [k|] eqn:E; [|apply fail_ok; exact H]. destruct H as [S R].
  split; [constructor; [split; [exact (link_fine _ _ E)|exact C]|exact S]|]. cbn [pb_root]. destruct k; try exact R; exact I.
Qed.
Lemma close_ok : forall b, pb_ok b -> pb_ok (fst (pb_close b)).
Proof.
  intros b H. unfold pb_close. destruct (pb_error b); [exact H|]. destruct H as [S R]. destruct (pb_stack b) as [|[k c] r] eqn:E; [split; [cbn [fst]; rewrite E; constructor|exact R]|].
  inversion S as [|? ? [L C] F]; subst. apply place_ok; [exact L|apply body_value; exact C|]. split; assumption.
Qed.
Lemma step_ok_strs : forall host pass native b e, pb_ok b -> pb_ok (fst (pb_step host pass native b e)).
Proof.
  intros host pass native b e H. destruct e; cbn [pb_step fst]; try (apply value_ok; [exact I|exact H]); try (apply open_ok; [constructor|exact H]); try (apply close_ok; exact H); try exact H.
  - apply value_ok; [destruct native; exact I|exact H].
  - match goal with |- context [py_decode pass ?t] => destruct (py_decode pass t) as [u|] eqn:D end; cbn [fst].
    + apply value_ok; [exact (decode_is_str _ _ _ _ (le_n _) D)|exact H].
    + destruct (pb_error b); [exact H|apply fail_ok; exact H].
  - destruct (pb_error b); exact H.
  - destruct H as [S R]. split; [constructor; [split; [destruct (_ && _); exact I|constructor]|exact S]|]. cbn [pb_root]. destruct (_ && _); [exact I|exact R].
  - destruct (pb_error b); [exact H|]. match goal with |- context [py_decode false ?t] => destruct (py_decode false t) end; [|exact H].
    destruct H as [S R]. split; [|exact I]. cbn [pb_stack]. apply Forall_map. eapply Forall_impl; [|exact S]. intros [k c] [L C]. split; [destruct k; try exact I; exact L|exact C].
Qed.

Lemma root_ok : forall s v, Forall frame_ok s -> match v with Some (k, x) => link_ok k /\ strs x | None => True end -> match root_of v s with Some x => strs x | None => True end.
Proof.
  induction s as [|[k c] r IH]; intros v S V; cbn [root_of].
  - destruct v as [[[] x]|]; try exact I; exact (proj2 V).
  - inversion S as [|? ? [L C] F]; subst. cbn [fst snd] in *. destruct v as [[[] x]|]; try exact (proj2 V); apply IH; auto; (split; [exact L|]); apply body_value; auto; [apply item_ok|apply member_ok]; auto; try exact (proj2 V); exact (proj1 V).
Qed.
Lemma object_ok : forall b v, pb_ok b -> pb_object b = Some v -> strs v.
Proof.
  intros b v [S R] H. unfold pb_object in H. destruct (pb_root b) as [|x|]; [discriminate|inversion H; subst; exact R|].
  pose proof (root_ok (pb_stack b) None S I) as X. rewrite H in X. exact X.
Qed.
(** The parameters of a call. *)
Lemma params_ok : forall own b l, pb_ok b -> py_params own b = Params l -> strs (PyTuple l).
Proof.
  intros own b l H E. unfold py_params, pb_data in E. destruct (pb_object b) as [v|] eqn:O; [|discriminate]. apply (object_ok _ _ H) in O.
  destruct (pb_method b); [|destruct v; try discriminate; inversion E; subst; exact O].
  destruct v; try discriminate; cbn [py_tuple] in E; inversion E; subst; clear E; try exact O.
  - apply strs_tuple, Forall_map, Forall_forall. intros c _. exact I.
  - apply strs_tuple, Forall_map. cbn [strs] in O. unfold is_str in O. eapply Forall_impl; [|exact O]. intros c C. constructor; [exact C|constructor].
  - apply strs_tuple, Forall_map. apply strs_dict in O. eapply Forall_impl; [|exact O]. intros kv [C _]. exact C.
Qed.

(** What the unmarshallers hand to the builder. *)
Section XmlKeeps.
  Context {B : Type}.
  Variable bstep : B -> event -> B * option fail.
  Variable strtod : bytes -> option Z.
  Variable erange : bool.
  Variable I' : B -> Prop.
  Hypothesis KEEP : forall b e, I' b -> I' (fst (bstep b e)).
  Definition res_ok (r : xun * B * option fail) : Prop := I' (snd (fst r)).
  Lemma emit_ok : forall u b e k, I' b -> (forall b, I' b -> res_ok (k b)) -> res_ok (x_emit bstep u b e k).
  Proof. intros u b e k H K. unfold x_emit. pose proof (KEEP b e H) as X. destruct (bstep b e) as [b' [f|]]; [exact X|apply K; exact X]. Qed.
  Lemma response_ok : forall u b k, I' b -> (forall u b, I' b -> res_ok (k u b)) -> res_ok (x_response bstep u b k).
  Proof. intros u b k H K. unfold x_response. destruct (xtype_eqb _ _); [apply emit_ok; [exact H|intros; apply K; assumption]|apply K; exact H]. Qed.
  Lemma type_ok : forall want u b name, I' b -> res_ok (set_value_type bstep want u b name).
  Proof.
    intros want u b name H. unfold set_value_type. cbv zeta.
    destruct (get_value_type name); try (apply response_ok; [exact H|]; intros u1 b1 H1; try destruct (xtype_eqb _ _); first [exact H1|apply emit_ok; [exact H1|intros; assumption]]);
      (destruct (_ && _); exact H).
  Qed.
  Lemma data_ok : forall u b data, I' b -> res_ok (set_value_data bstep strtod erange u b data).
  Proof.
    intros u b data H. unfold set_value_data. destruct (x_type u); try (apply emit_ok; [exact H|intros; assumption]); try exact H.
    all: repeat match goal with |- res_ok (match ?x with _ => _ end) => destruct x end; first [exact H|apply emit_ok; [exact H|intros; assumption]|idtac].
    all: cbv zeta; repeat match goal with |- res_ok (if ?x then _ else _) => destruct x end; first [exact H|apply emit_ok; [exact H|intros; assumption]].
  Qed.
  Lemma entity_ok : forall u b name, I' b -> res_ok (close_entity bstep u b name).
  Proof.
    intros u b name H. unfold close_entity. cbv zeta. destruct (xtype_eqb _ _); destruct (get_value_type name); first [exact H|apply emit_ok; [exact H|intros; assumption]].
  Qed.
  Lemma caught_ok : forall r, res_ok r -> I' (snd (x_caught r)).
  Proof. intros [[u b] [[[]|]|]] H; exact H. Qed.
  Lemma sax_ok : forall want u b e, I' b -> I' (snd (sax_step bstep strtod erange want u b e)).
  Proof.
    intros want u b e H. unfold sax_step. destruct (x_exc u); [exact H|]. destruct e as [n|n|t]; [| |exact H]; apply caught_ok.
    - pose proof (type_ok want u b n H) as X. destruct (set_value_type bstep want u b n) as [[u1 b1] [f|]]; exact X.
    - pose proof (data_ok u b (x_buf u) H) as X. destruct (set_value_data bstep strtod erange u b (x_buf u)) as [[u1 b1] [f|]]; [exact X|]. apply entity_ok. exact X.
  Qed.
  Lemma saxes_ok : forall want l u b, I' b -> I' (snd (sax_steps bstep strtod erange want u b l)).
  Proof.
    intros want. induction l as [|e l IH]; intros u b H; [exact H|]. cbn [sax_steps]. pose proof (sax_ok want u b e H) as X. destruct (sax_step bstep strtod erange want u b e) as [u1 b1]. apply IH. exact X.
  Qed.
  Lemma x_unmarshall_ok : forall want u b chunk batch code, I' b -> res_ok (x_unmarshall bstep strtod erange want u b chunk batch code).
  Proof.
    intros want u b chunk batch code H. unfold x_unmarshall. destruct (x_sniff u chunk) as [u0 [f|]]; [exact H|]. pose proof (saxes_ok want batch u0 b H) as X.
    destruct (sax_steps bstep strtod erange want u0 b batch) as [u1 b1]. destruct (x_exc u1) as [[]|]; repeat match goal with |- context [if ?x then _ else _] => destruct x end; exact X.
  Qed.
  Lemma x_finish_ok : forall u b batch code, I' b -> res_ok (x_finish bstep strtod erange u b batch code).
  Proof.
    intros u b batch code H. unfold x_finish. pose proof (x_unmarshall_ok 0 u b [] batch code H) as X. destruct (x_unmarshall bstep strtod erange 0 u b [] batch code) as [[u1 b1] [f|]]; [exact X|].
    destruct (xtype_eqb _ _); exact X.
  Qed.
End XmlKeeps.

Section Keeps.
  Variable host : datetime -> datetime.
  Variables pass native : bool.
  Notation step := (pb_step host pass native).
  Definition keeps (u : pyum) : Prop := forall pieces s s', hand_over (pu_take u) (pu_init u) pieces = (s, None) -> pu_finish u s = (s', Ok tt) -> pb_ok (pu_builder u s').
  Lemma xml_keeps : forall P strtod erange want, keeps (pxml_um step P strtod erange want).
  Proof.
    intros P strtod erange want pieces s s' H F.
    assert (X : forall pieces s s', pb_ok (snd s) -> hand_over (pu_take (pxml_um step P strtod erange want)) s pieces = (s', None) -> pb_ok (snd s')).
    { clear. induction pieces as [|d r IH]; intros s s' K H; [inversion H; subst; exact K|]. cbn [hand_over] in H.
      destruct (pu_take (pxml_um step P strtod erange want) s d) as [s1 [f|]] eqn:E; [discriminate|]. eapply IH; [|exact H].
      cbn [pu_take pxml_um] in E. destruct s as [[p u] t]. destruct (ps_take P p d) as [[p' batch] code]. cbn [snd] in K.
      pose proof (x_unmarshall_ok step strtod erange pb_ok (step_ok_strs host pass native) want u t d batch code K) as X.
      destruct (x_unmarshall step strtod erange want u t d batch code) as [[u1 t1] f1]. inversion E; subst. exact X. }
    assert (X0 := X pieces (pu_init (pxml_um step P strtod erange want)) s init_ok H). destruct s as [[p u] t]. cbn [snd] in X0.
    cbn [pu_finish pxml_um] in F. destruct (ps_take P p []) as [[p' batch] code].
    pose proof (x_finish_ok step strtod erange pb_ok (step_ok_strs host pass native) u t batch code X0) as Y.
    destruct (x_finish step strtod erange u t batch code) as [[u1 t1] f1]. inversion F; subst. exact Y.
  Qed.
  Lemma events_ok : forall es b, pb_ok b -> pb_ok (fst (pb_events step b es)).
  Proof.
    induction es as [|e es IH]; intros b H; [exact H|]. cbn [pb_events]. pose proof (step_ok_strs host pass native b e H) as X. destruct (pb_step host pass native b e) as [b1 [f|]]; [exact X|apply IH; exact X].
  Qed.
  Lemma url_keeps : forall strtod erange p, keeps (purl_um step strtod erange p).
  Proof.
    intros strtod erange p pieces s s' H F.
    assert (X : forall pieces s s', hand_over (pu_take (purl_um step strtod erange p)) s pieces = (s', None) -> snd s' = snd s).
    { clear. induction pieces as [|d r IH]; intros s s' H; [inversion H; subst; reflexivity|]. cbn [hand_over pu_take purl_um] in H. apply IH in H. exact H. }
    apply X in H. cbn [pu_init purl_um snd] in H. cbn [pu_finish purl_um] in F. rewrite H in F.
    destruct (url_finish strtod erange (url_method p) (fst s)) as [es f]. pose proof (events_ok es pb_init init_ok) as Y. destruct (pb_events step pb_init es) as [b1 [[e|]|]]; inversion F; subst.
    destruct f as [[e|]|]; inversion F; subst; exact Y.
  Qed.
End Keeps.
