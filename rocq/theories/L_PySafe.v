(** Lemmas: [loads] on any data. *)
From Coq Require Import Lia.
From Verif Require Import Base Value Unicode M_Marshal M_BinUnmarshal S_Events S_Value S_Wire M_Python S_Python L_Base L_BinUnmarshal L_BinSafety L_Nesting L_Morph L_RoundTrip
  L_Message L_Wire L_Origin L_PyText L_PyBuild L_PyRead L_Python L_PyLoad.

Definition called (tr : list event) : option bytes := match tr with EMethodCall k :: _ => Some k | _ => None end.
Definition unrooted (s : list (plink * pbody)) : Prop := Forall (fun f => fst f <> L_root) s.
Definition a_fault (p : py) : Prop := match p with PyFault _ _ => True | _ => False end.
Definition rooted (b : pb) : Prop :=
  match pb_root b with
  | P_null => False
  | P_done v => ~ a_fault v /\ pb_method b = None /\ pb_first b = match pb_stack b with [] => pb_first b | _ => false end /\ unrooted (pb_stack b)
  | P_open => exists s c, pb_stack b = s ++ [(L_root, c)] /\ unrooted s /\ pb_first b = false /\ (pb_method b <> None -> exists l, c = PB_list l)
  end.
Definition pyrel (s : nstate) (b : pb) : Prop :=
  match s with
  | NStart => b = pb_init
  | NBody o => pb_bad b \/ (pb_error b = false /\ length (pb_stack b) = (length o + match pb_method b with Some _ => 1 | None => 0 end)%nat /\ rooted b)
  | NEnd => exists n m, pb_root b = P_done (PyFault (PyInt n) (PyStr m)) /\ pb_method b = None
  end.

Section Safe.
  Variable host : datetime -> datetime.
  Variable pass native : bool.
  Notation step := (pb_step host pass native).

  Lemma app_last : forall (s : list (plink * pbody)) y z r, s ++ [y] = z :: r -> (s = [] /\ z = y /\ r = []) \/ exists s', s = z :: s' /\ r = s' ++ [y].
  Proof. intros [|a s] y z r H; cbn [app] in H; inversion H; subst; [left; auto|right; eauto]. Qed.

  Lemma value_rel : forall o o' b v, pyrel (NBody o) b -> length o' = length o -> ~ a_fault v -> pyrel (NBody o') (pb_value v b).
  Proof.
    intros o o' b v R L NF. unfold pb_value. destruct R as [B|(E & LS & R)]; [destruct B as [B1 B2]; rewrite B1; left; split; auto|]. rewrite E.
    unfold link_of. destruct (pb_stack b) as [|[k c] r] eqn:ST.
    - right. unfold rooted in R. destruct (pb_root b) eqn:RT; [contradiction| |].
      + destruct R as (NV & ME & FI & UN). destruct (pb_first b) eqn:FB; unfold place; rewrite ?ST.
        * cbn [pb_error pb_stack pb_method]. split; [exact E|]. split; [rewrite ME in *; cbn [length] in *; lia|]. unfold rooted. cbn [pb_root pb_method pb_first pb_stack]. repeat split; auto. constructor.
        * split; [exact E|]. split; [rewrite ST, ME in *; cbn [length] in *; lia|]. unfold rooted. rewrite RT, ST, ME, FB. split; [exact NV|]. split; [reflexivity|]. split; [reflexivity|constructor].
      + destruct R as (s & c & X & _). rewrite ST in X. destruct s; discriminate X.
    - assert (PW : forall c', (forall l, c = PB_list l -> exists l, c' = PB_list l) -> pyrel (NBody o') (pb_with ((k, c') :: r) b)).
      { intros c' CL. right. unfold pb_with. cbn [pb_error pb_stack pb_method]. split; [exact E|]. split; [cbn [length] in *; lia|].
        unfold rooted in *. cbn [pb_root pb_method pb_first pb_stack]. destruct (pb_root b); [exact R| |].
        - destruct R as (NV & ME & FI & UN). rewrite ST in *. repeat split; auto. inversion UN; subst. constructor; auto.
        - destruct R as (s & c0 & X & UN & FI & ML). rewrite ST in X. symmetry in X. apply app_last in X. destruct X as [(-> & X & ->)|(s' & -> & ->)].
          + inversion X; subst. exists [], c'. repeat split; auto. intro N. destruct (ML N) as [l ->]. apply (CL l). reflexivity.
          + exists ((k, c') :: s'), c0. repeat split; auto. inversion UN; subst. constructor; auto. }
      destruct c as [l|m].
      + unfold place. rewrite ST. apply PW. intros l0 X. inversion X; subst. cbn [add_item]. eauto.
      + destruct (key_of (pb_member b)) as [key|]; cbn [option_map]; [|left; split; reflexivity].
        unfold place. rewrite ST. apply PW. intros l0 X. discriminate.
  Qed.

  Lemma open_rel : forall o o' b c, pyrel (NBody o) b -> length o' = S (length o) -> pyrel (NBody o') (pb_open c b).
  Proof.
    intros o o' b c R L. unfold pb_open. destruct R as [B|(E & LS & R)]; [destruct B as [B1 B2]; rewrite B1; left; split; auto|]. rewrite E.
    unfold link_of. destruct (pb_stack b) as [|[k c0] r] eqn:ST.
    - right. cbn [pb_error pb_stack pb_method]. split; [reflexivity|]. split; [cbn [length] in *; lia|]. unfold rooted in *. cbn [pb_root pb_method pb_first pb_stack].
      destruct (pb_first b) eqn:FB.
      + exists [], c. repeat split; [constructor|]. destruct (pb_root b); [contradiction| |].
        * destruct R as (_ & ME & _). intro X. contradiction.
        * destruct R as (s & c' & X & _). rewrite ST in X. destruct s; discriminate X.
      + destruct (pb_root b); [contradiction| |].
        * destruct R as (NV & ME & FI & UN). repeat split; auto. constructor; [discriminate|constructor].
        * destruct R as (s & c' & X & _). rewrite ST in X. destruct s; discriminate X.
    - assert (PW : forall k', k' <> L_root -> pyrel (NBody o') (mkPB ((k', c) :: (k, c0) :: r) (pb_root b) (pb_first b) false (pb_member b) (pb_method b))).
      { intros k' NK. right. cbn [pb_error pb_stack pb_method]. split; [reflexivity|]. split; [cbn [length] in *; lia|]. unfold rooted in *. cbn [pb_root pb_method pb_first pb_stack].
        destruct (pb_root b); [contradiction| |].
        - destruct R as (NV & ME & FI & UN). rewrite ST in *. repeat split; auto. constructor; auto.
        - destruct R as (s & c' & X & UN & FI & ML). rewrite ST in X. exists ((k', c) :: s), c'. rewrite X. repeat split; auto. constructor; auto. }
      destruct c0 as [l|m].
      + apply PW. discriminate.
      + destruct (key_of (pb_member b)) as [key|]; cbn [option_map]; [|left; split; reflexivity]. apply PW. discriminate.
  Qed.

  Lemma close_rel : forall o x b, pyrel (NBody (x :: o)) b -> snd (pb_close b) = None /\ pyrel (NBody o) (fst (pb_close b)).
  Proof.
    intros o x b R. unfold pb_close. destruct R as [B|(E & LS & R)]; [destruct B as [B1 B2]; rewrite B1; split; [reflexivity|left; split; auto]|]. rewrite E.
    destruct (pb_stack b) as [|[k c] r] eqn:ST; [cbn [length] in LS; lia|]. cbn [fst snd]. split; [reflexivity|].
    cbn [length] in LS. right.
    assert (NF : ~ a_fault (pb_value_of c)) by (destruct c; intros []).
    unfold rooted in R. destruct (pb_root b) eqn:RT; [contradiction| |].
    - destruct R as (NV & ME & FI & UN). rewrite ST in *. inversion UN as [|? ? U0 U']; subst. cbn [fst] in U0.
      assert (PS : forall b', pb_error b' = false -> length (pb_stack b') = length r -> pb_method b' = None -> pb_root b' = pb_root b -> pb_first b' = false -> unrooted (pb_stack b') ->
        pb_error b' = false /\ length (pb_stack b') = (length o + match pb_method b' with Some _ => 1 | None => 0 end)%nat /\ rooted b').
      { intros b' A1 A2 A3 A4 A5 A6. split; [exact A1|]. split; [rewrite A3, A2, ME in *; lia|]. unfold rooted. rewrite A4, RT. repeat split; auto. rewrite A5. destruct (pb_stack b'); reflexivity. }
      destruct k; [contradiction| | |].
      + destruct r as [|[k1 c1] r1]; unfold place; cbn [pb_with pb_stack]; apply PS; cbn [pb_with pb_stack pb_error pb_method pb_root pb_first]; auto. inversion U'; subst. constructor; auto.
      + destruct r as [|[k1 c1] r1]; unfold place; cbn [pb_with pb_stack]; apply PS; cbn [pb_with pb_stack pb_error pb_method pb_root pb_first]; auto. inversion U'; subst. constructor; auto.
      + unfold place. cbn [pb_with pb_stack]. destruct r; apply PS; cbn [pb_with pb_stack pb_error pb_method pb_root pb_first]; auto.
    - destruct R as (s & c0 & X & UN & FI & ML). rewrite ST in X. symmetry in X. apply app_last in X. destruct X as [(-> & X & ->)|(s' & -> & ->)].
      + inversion X; subst. unfold place. cbn [pb_with pb_error pb_stack pb_method pb_root pb_first pb_member]. cbn [length] in *.
        destruct (pb_method b) eqn:ME; [lia|]. split; [exact E|]. split; [lia|]. unfold rooted. cbn [pb_root pb_method pb_first pb_stack]. repeat split; auto; constructor.
      + inversion UN as [|? ? U0 U']; subst. cbn [fst] in U0.
        assert (LEN : length (s' ++ [(L_root, c0)]) = (length o + match pb_method b with Some _ => 1 | None => 0 end)%nat) by lia.
        assert (PS : forall s2 c2, unrooted s2 -> length (s2 ++ [(L_root, c2)]) = length (s' ++ [(L_root, c0)]) -> (forall l, c0 = PB_list l -> exists l, c2 = PB_list l) ->
          let b' := pb_with (s2 ++ [(L_root, c2)]) b in
          pb_error b' = false /\ length (pb_stack b') = (length o + match pb_method b' with Some _ => 1 | None => 0 end)%nat /\ rooted b').
        { intros s2 c2 U2 L2 CL. cbn [pb_with pb_error pb_stack pb_method]. split; [exact E|]. split; [rewrite L2; exact LEN|]. unfold rooted. cbn [pb_with pb_root pb_method pb_first pb_stack].
          rewrite RT. exists s2, c2. repeat split; auto. intro N. destruct (ML N) as [l EL]. eapply CL. exact EL. }
        destruct k; [contradiction| | |].
        * unfold place. cbn [pb_with pb_stack]. destruct s' as [|[k1 c1] s1]; cbn [app].
          -- apply (PS [] (add_item (pb_value_of c) c0)); [constructor|reflexivity|]. intros l EL. subst. cbn [add_item]. eauto.
          -- inversion U'; subst. apply (PS ((k1, add_item (pb_value_of c) c1) :: s1) c0); [constructor; auto|reflexivity|eauto].
        * unfold place. cbn [pb_with pb_stack]. destruct s' as [|[k1 c1] s1]; cbn [app].
          -- apply (PS [] (add_member k (pb_value_of c) c0)); [constructor|reflexivity|]. intros l EL. subst. cbn [add_member]. eauto.
          -- inversion U'; subst. apply (PS ((k1, add_member k (pb_value_of c) c1) :: s1) c0); [constructor; auto|reflexivity|eauto].
        * unfold place. cbn [pb_with pb_stack]. destruct s' as [|[k1 c1] s1]; cbn [app]; apply (PS _ c0 U' eq_refl); eauto.
  Qed.

  (** A step that is well nested: no undefined behaviour but for the message of a fault. *)
  Lemma pb_step_rel : forall s e s' b, nest_step s e = Some s' -> pyrel s b ->
    (snd (step b e) = None -> pyrel s' (fst (step b e))) /\
    (forall f, snd (step b e) = Some f -> s = NStart /\ f = Undef /\ exists n msg, e = EFault n msg /\ py_decode false msg = None).
  Proof.
    intros s e s' b N R. destruct s as [|o|]; cbn [nest_step] in N; [| |discriminate].
    - cbn [pyrel] in R. subst b. destruct e; try discriminate; inversion N; subst; cbn [pb_step pb_init pb_error pb_first pb_stack pb_root pb_member pb_method fst snd andb negb].
      + split; [|discriminate]. intros _. right. cbn [pb_error pb_stack pb_method length]. split; [reflexivity|]. split; [reflexivity|]. exists [], (PB_list []). repeat split; [constructor|]. eauto.
      + split; [|discriminate]. intros _. right. cbn [pb_error pb_stack pb_method length]. split; [reflexivity|]. split; [reflexivity|]. unfold rooted. cbn. repeat split; auto. constructor.
      + match goal with |- context [py_decode false ?t] => destruct (py_decode false t) as [m|] eqn:D end; cbn [fst snd].
        * split; [|discriminate]. intros _. cbn. eauto.
        * split; [discriminate|]. intros f X. inversion X; subst. split; [reflexivity|]. split; [reflexivity|]. eauto.
    - destruct e; try discriminate; cbn [pb_step];
        try (destruct (take_item o) as [o'|] eqn:T; [|discriminate]; apply take_item_length in T; inversion N; subst;
             try (cbn [fst snd]; split; [|discriminate]; intros _; first [eapply value_rel; eauto; try (intros []; fail) | eapply open_rel; eauto; cbn [length]; lia])).
      + destruct native; intros [].
      + match goal with |- context [py_decode pass ?t] => destruct (py_decode pass t) as [u|] end; cbn [fst snd]; split; try discriminate; intros _; [eapply value_rel; eauto; intros []|].
        destruct (pb_error b) eqn:E; [|left; split; reflexivity]. destruct R as [B|(X & _)]; [left; exact B|congruence].
      + unfold name_item in N. destruct o as [|[[n [|]] [|]] r]; try discriminate.
        destruct (_ && _); inversion N; subst. cbn [fst snd]. split; [|discriminate]. intros _.
        destruct (pb_error b) eqn:E; [destruct R as [B|(X & _)]; [left; exact B|congruence]|]. destruct R as [[X _]|(_ & LS & R)]; [congruence|]. right. cbn [pb_error pb_stack pb_method].
        split; [reflexivity|]. split; [exact LS|]. exact R.
      + unfold close_item in N. destruct o as [|[[n [|]] [|]] r]; try discriminate.
        destruct (_ =? _); inversion N; subst. destruct (close_rel _ _ _ R) as [A C]. split; [auto|]. intros f X. congruence.
      + unfold close_item in N. destruct o as [|[[n [|]] p] r]; try discriminate.
        destruct (_ =? _); inversion N; subst. destruct (close_rel _ _ _ R) as [A C]. split; [auto|]. intros f X. congruence.
  Qed.
  Lemma step_method : forall b e, snd (step b e) = None -> pb_method (fst (step b e)) = match e with EMethodCall k => Some k | _ => pb_method b end.
  Proof.
    intros b e H. assert (PL : forall k v b, pb_method (place k v b) = pb_method b) by (intros k v [st ? ? ? ? ?]; destruct k; destruct st as [|[? ?] ?]; reflexivity).
    assert (PV : forall v, pb_method (pb_value v b) = pb_method b) by (intro v; unfold pb_value; destruct (pb_error b); [reflexivity|]; destruct (link_of b); [apply PL|reflexivity]).
    assert (PO : forall v, pb_method (pb_open v b) = pb_method b) by (intro v; unfold pb_open; destruct (pb_error b); [reflexivity|]; destruct (link_of b) as [k|]; reflexivity).
    assert (PC : pb_method (fst (pb_close b)) = pb_method b) by (unfold pb_close; destruct (pb_error b); [reflexivity|]; destruct (pb_stack b) as [|[k c] r]; [reflexivity|]; cbn [fst]; rewrite PL; reflexivity).
    destruct e; cbn [pb_step fst snd] in *; auto; try (rewrite PV; reflexivity).
    - match goal with |- context [py_decode pass ?t] => destruct (py_decode pass t) end; cbn [fst]; [apply PV|]. destruct (pb_error b); reflexivity.
    - destruct (pb_error b); reflexivity.
    - destruct (pb_error b); [reflexivity|]. match goal with |- context [py_decode false ?t] => destruct (py_decode false t) end; [reflexivity|discriminate].
  Qed.

  Definition pgood (x : pb * list event) : Prop := forall s, nest_run NStart (snd x) = Some s -> pyrel s (fst x) /\ (s <> NStart -> pb_method (fst x) = called (snd x)) /\
    (forall n msg, snd x = [EFault n msg] -> exists m, py_decode false msg = Some m /\ pb_root (fst x) = P_done (PyFault (PyInt n) (PyStr m))).
  Lemma pgood_step : forall x e x', pgood x -> traced step x e = (x', None) -> pgood x'.
  Proof.
    intros [b es] e x' G H. unfold traced in H. cbn [fst snd] in H. destruct (step b e) as [b' f] eqn:E. inversion H; subst. clear H.
    intros s' HR. cbn [fst snd] in *. rewrite nest_run_app in HR. destruct (nest_run NStart es) as [s|] eqn:ES; [|discriminate]. cbn [nest_run] in HR.
    destruct (nest_step s e) as [s1|] eqn:EN; [|discriminate]. inversion HR; subst. destruct (G s ES) as (R & M & _). cbn [fst snd] in *.
    destruct (pb_step_rel s e s' b EN R) as [X _]. rewrite E in X. split; [apply X; reflexivity|]. split.
    2:{ intros n msg EQ. destruct es as [|e0 es]; [|destruct es; discriminate EQ]. cbn in ES, EQ. inversion ES; inversion EQ; subst. cbn [pyrel] in R. subst b.
        cbn [pb_step pb_init pb_error] in E. destruct (py_decode false msg) as [m|]; [|discriminate]. inversion E; subst. exists m. split; reflexivity. }
    intros _.
    pose proof (step_method b e) as SM. rewrite E in SM. cbn [fst snd] in SM. rewrite SM by reflexivity.
    destruct es as [|e0 es]; cbn [app called].
    - cbn in ES. inversion ES; subst. cbn [pyrel] in R. subst b. destruct e; reflexivity.
    - assert (NS : s <> NStart).
      { intro. subst s. cbn [nest_run] in ES. destruct (nest_step NStart e0) as [s1|] eqn:E0; [|discriminate]. clear - ES E0.
        assert (Y : forall es s1 s2, s1 <> NStart -> nest_run s1 es = Some s2 -> s2 <> NStart).
        { clear. induction es as [|e es IH]; intros s1 s2 N H; cbn [nest_run] in H; [inversion H; subst; exact N|]. destruct (nest_step s1 e) as [s3|] eqn:E; [|discriminate].
          eapply IH; [|exact H]. intro. subst. destruct s1 as [|o|]; [congruence| |discriminate]. cbn [nest_step] in E. destruct e; try discriminate;
            try (destruct (take_item o); discriminate); unfold name_item, close_item in E; destruct o as [|[[n [|]] [|]] r]; try discriminate;
            repeat match type of E with context [if ?b then _ else _] => destruct b end; discriminate. }
        apply (Y es s1 NStart); auto. intro. subst. destruct e0; cbn in E0; discriminate. }
      specialize (M NS). destruct e; try exact M. exfalso. destruct s as [|o|]; [congruence| |]; cbn in EN; discriminate.
  Qed.

  (** All data. *)
  Lemma unmarshall_safe : forall data u b tr f, unmarshall _ (traced step) TYPE_ANY unm_init (pb_init, []) data = (u, (b, tr), f) ->
    match f with
    | None => pgood (b, tr) /\ exists s, nest_run NStart tr = Some s
    | Some f => (exists m, f = Exn (StreamError m)) \/ (f = Undef /\ exists n msg, tr = [EFault n msg] /\ py_decode false msg = None)
    end.
  Proof.
    intros data u b tr f E. rewrite <- one_piece in E.
    destruct (unmarshall_all_nest pb step TYPE_ANY [data] unm_init (pb_init, []) _ _ _ (nready_init _ _) E) as [WN _]. cbn [snd] in WN.
    pose proof (unmarshall_all_origin _ (traced step) TYPE_ANY pgood) as X.
    specialize (X (fun x e x' G H => pgood_step x e x' G H) [data] unm_init (pb_init, []) u (b, tr) f ready_init).
    assert (G0 : pgood (pb_init, [])) by (intros s H; inversion H; subst; split; [reflexivity|split; [congruence|discriminate]]).
    specialize (X G0 E). unfold well_nested in WN. destruct (nest_run NStart tr) as [s|] eqn:ES; [|congruence].
    destruct f as [f|]; [|split; [exact X|eauto]]. destruct X as [[[m ->] _]|([b0 es0] & e & G & HS)]; [left; eauto|]. right.
    pose proof HS as HS0. apply traced_snd in HS. cbn [snd] in HS. subst tr. rewrite nest_run_app in ES. destruct (nest_run NStart es0) as [s0|] eqn:ES0; [|discriminate].
    cbn [nest_run] in ES. destruct (nest_step s0 e) as [s1|] eqn:EN; [|discriminate]. destruct (G s0 ES0) as (R & _). cbn [fst] in R.
    destruct (pb_step_rel s0 e s1 b0 EN R) as [_ NF]. unfold traced in HS0. cbn [fst snd] in HS0. destruct (step b0 e) as [b2 f2]. inversion HS0; subst.
    destruct (NF f eq_refl) as (-> & -> & n & msg & -> & D). split; [reflexivity|]. exists n, msg. split; [|exact D].
    assert (es0 = []); [|subst; reflexivity]. destruct es0 as [|e0 es0]; [reflexivity|]. exfalso.
    clear - ES0. cbn [nest_run] in ES0. destruct (nest_step NStart e0) as [s1|] eqn:E0; [|discriminate].
    assert (Y : forall es s1 s2, s1 <> NStart -> nest_run s1 es = Some s2 -> s2 <> NStart).
    { clear. induction es as [|e es IH]; intros s1 s2 N H; cbn [nest_run] in H; [inversion H; subst; exact N|]. destruct (nest_step s1 e) as [s3|] eqn:E; [|discriminate].
      eapply IH; [|exact H]. intro. subst. destruct s1 as [|o|]; [congruence| |discriminate]. cbn [nest_step] in E. destruct e; try discriminate;
        try (destruct (take_item o); discriminate); unfold name_item, close_item in E; destruct o as [|[[n [|]] [|]] r]; try discriminate;
        repeat match type of E with context [if ?b then _ else _] => destruct b end; discriminate. }
    apply (Y es0 s1 NStart); auto. intro. subst. destruct e0; cbn in E0; discriminate.
  Qed.

  Lemma root_open : forall s c, unrooted s -> forall v, (forall x, v <> Some (L_root, x)) -> exists w, root_of v (s ++ [(L_root, c)]) = Some w /\ ~ a_fault w.
  Proof.
    induction s as [|[k c1] s IH]; intros c U v NV.
    - cbn [app root_of]. destruct v as [[[| |key|] x]|]; try (exfalso; eapply NV; reflexivity); (eexists; split; [reflexivity|]; destruct c; intros []).
    - inversion U as [|? ? U0 U']; subst. cbn [fst] in U0. cbn [app root_of].
      destruct v as [[[| |key|] x]|]; try (exfalso; eapply NV; reflexivity); apply IH; auto; intros y X; inversion X; congruence.
  Qed.
  (** In a call the object is a list. *)
  Lemma root_list : forall s l, unrooted s -> forall v, (forall x, v <> Some (L_root, x)) -> exists l', root_of v (s ++ [(L_root, PB_list l)]) = Some (PyList l').
  Proof.
    induction s as [|[k c1] s IH]; intros l U v NV.
    - cbn [app root_of]. destruct v as [[[| |key|] x]|]; try (exfalso; eapply NV; reflexivity); cbn [pb_value_of add_item add_member root_of]; eauto.
    - inversion U as [|? ? U0 U']; subst. cbn [fst] in U0. cbn [app root_of].
      destruct v as [[[| |key|] x]|]; try (exfalso; eapply NV; reflexivity); apply IH; auto; intros y X; inversion X; congruence.
  Qed.

  Definition outcome (b : pb) (tr : list event) (r : pyres (py * option pystr)) : Prop :=
    (pb_error b = false /\ exists q n, r = PyOk (q, n) /\ match called tr with None => n = None | Some k => exists u, n = Some u /\ py_decode false k = Some u end) \/
    (r = PyRaise PE_Decode /\ (pb_error b = true \/ exists k, called tr = Some k /\ py_decode false k = None)) \/
    (exists n m msg, r = PyRaise (PE_Fault (PyInt n) (PyStr m)) /\ tr = [EFault n msg] /\ py_decode false msg = Some m).

  Lemma end_fault : forall tr, nest_run NStart tr = Some NEnd -> exists n m, tr = [EFault n m].
  Proof.
    intros tr H. destruct tr as [|e tr]; [discriminate|]. cbn [nest_run] in H. destruct (nest_step NStart e) as [s|] eqn:E; [|discriminate].
    destruct e; cbn in E; inversion E; subst.
    1,2: exfalso; clear E; assert (Y : forall es o, nest_run (NBody o) es <> Some NEnd); [|eapply Y; exact H]; clear; induction es as [|e es IH]; intros o H; cbn [nest_run] in H; [discriminate|];
      destruct (nest_step (NBody o) e) as [s|] eqn:E; [|discriminate]; cbn [nest_step] in E; destruct e; try discriminate;
      try (destruct (take_item o); inversion E; subst; eapply IH; eauto; fail); unfold name_item, close_item in E; destruct o as [|[[n [|]] [|]] r]; try discriminate;
      repeat match type of E with context [if ?b then _ else _] => destruct b end; inversion E; subst; eapply IH; eauto.
    destruct tr; [eauto|]. cbn in H. discriminate.
  Qed.

  Lemma loads_traced : forall data, loads host pass native data =
    match unmarshall _ (traced step) TYPE_ANY unm_init (pb_init, []) data with
    | (_, _, Some f) => of_fail f
    | (_, (b, _), None) =>
        match pb_data b with
        | PyRaise e => PyRaise e | PyAbort => PyAbort | PyUndef => PyUndef
        | PyOk (PyFault code msg) => PyRaise (PE_Fault code msg)
        | PyOk v => match pb_name b with PyOk n => PyOk (v, n) | PyRaise e => PyRaise e | PyAbort => PyAbort | PyUndef => PyUndef end
        end
    end.
  Proof.
    intro data. unfold loads. rewrite (traced_unmarshall _ _ _ _ _ _ []). destruct (unmarshall _ (traced step) _ _ _ _) as [[u [b tr]] [f|]]; reflexivity.
  Qed.

  Lemma loads_outcome : forall data u b tr, unmarshall _ (traced step) TYPE_ANY unm_init (pb_init, []) data = (u, (b, tr), None) ->
    outcome b tr (loads host pass native data).
  Proof.
    intros data u b tr E. rewrite loads_traced, E. pose proof (unmarshall_safe _ _ _ _ _ E) as [G (s & ES)]. destruct (G s ES) as (R & M & FT). cbn [fst snd] in *.
    destruct s as [|o|].
    - cbn [pyrel] in R. subst b. left. split; [reflexivity|]. exists PyNone, None. split; [reflexivity|].
      destruct tr as [|e tr]; [reflexivity|]. exfalso. clear - ES. revert ES. cbn [nest_run]. destruct (nest_step NStart e) as [s1|] eqn:E0; [|discriminate].
      assert (Y : forall es s1 s2, s1 <> NStart -> nest_run s1 es = Some s2 -> s2 <> NStart).
      { clear. induction es as [|e es IH]; intros s1 s2 N H; cbn [nest_run] in H; [inversion H; subst; exact N|]. destruct (nest_step s1 e) as [s3|] eqn:E; [|discriminate].
        eapply IH; [|exact H]. intro. subst. destruct s1 as [|o|]; [congruence| |discriminate]. cbn [nest_step] in E. destruct e; try discriminate;
          try (destruct (take_item o); discriminate); unfold name_item, close_item in E; destruct o as [|[[n [|]] [|]] r]; try discriminate;
          repeat match type of E with context [if ?b then _ else _] => destruct b end; discriminate. }
      intro ES. apply (Y tr s1 NStart); auto. intro. subst. destruct e; cbn in E0; discriminate.
    - specialize (M ltac:(discriminate)). destruct R as [[B1 B2]|(ER & LS & R)].
      + right. left. unfold pb_data, pb_object. rewrite B2. auto.
      + assert (NM : pb_name b = match called tr with None => PyOk None | Some k => match py_decode false k with Some m => PyOk (Some m) | None => PyRaise PE_Decode end end)
          by (unfold pb_name; rewrite M; reflexivity).
        unfold rooted in R. unfold pb_data, pb_object. destruct (pb_root b) as [|v|]; [contradiction| |].
        * destruct R as (NV & ME & _). rewrite ME. rewrite NM. rewrite M in ME. rewrite ME. left. split; [exact ER|]. exists v, None.
          split; [|rewrite ME; reflexivity]. destruct v; cbn beta iota; try reflexivity. exfalso. apply NV. exact I.
        * destruct R as (st & c & X & UN & FI & ML). rewrite X. rewrite NM, M. destruct (called tr) as [k|] eqn:CT.
          -- destruct (ML ltac:(congruence)) as [l ->]. destruct (root_list st l UN None ltac:(discriminate)) as [l' ->].
             destruct (py_decode false k) as [n|] eqn:D.
             ++ left. split; [exact ER|]. do 2 eexists. split; [reflexivity|]. rewrite CT. eauto.
             ++ right. left. eauto.
          -- destruct (root_open st c UN None ltac:(discriminate)) as (w & -> & NF). left. split; [exact ER|]. exists w, None. split; [|rewrite CT; reflexivity].
             destruct w; try reflexivity. exfalso. apply NF. exact I.
    - destruct R as (n & m & R & ME). right. right. destruct (end_fault tr ES) as (n' & m' & ->). unfold pb_data, pb_object. rewrite R, ME.
      destruct (FT n' m' eq_refl) as (w & D & R2). rewrite R in R2. inversion R2; subst. exists n', w, m'. auto.
  Qed.

  (** ** Messages that end too early *)
  Lemma traced_replay : forall B (bs : B -> event -> B * option fail) es b t b2, replay bs b es = (b2, None) -> replay (traced bs) (b, t) es = ((b2, t ++ es), None).
  Proof.
    induction es as [|e es IH]; intros b t b2 H; cbn [replay] in *.
    - inversion H; subst. rewrite app_nil_r. reflexivity.
    - unfold traced. cbn [fst snd]. destruct (bs b e) as [b1 [f|]]; [discriminate|]. fold (traced bs). rewrite (IH _ _ _ H), <- app_assoc. reflexivity.
  Qed.

  Lemma cut_outcome : forall a c u b tr, unmarshall_all _ (traced step) TYPE_ANY unm_init (pb_init, []) [a; c] = (u, (b, tr), None) -> pb_error b = false ->
    exists b1 t es, tr = t ++ es /\ pb_error b1 = false /\ outcome b1 t (loads host pass native a).
  Proof.
    intros a c u b tr E ER. change (unmarshall_all _ (traced step) TYPE_ANY unm_init (pb_init, []) [a; c]) with
      (match unmarshall _ (traced step) TYPE_ANY unm_init (pb_init, []) a with
       | (u', b', None) => unmarshall_all _ (traced step) TYPE_ANY u' b' [c] | (u', b', Some f) => (u', b', Some f) end) in E.
    pose proof (unmarshall_ready _ (traced step) TYPE_ANY unm_init (pb_init, []) a) as UR.
    destruct (unmarshall _ (traced step) TYPE_ANY unm_init (pb_init, []) a) as [[u1 [b1 t]] [f|]] eqn:EA; [discriminate|].
    assert (RD : ready u1) by (eapply UR; eauto using ready_init).
    exists b1, t. pose proof (unmarshall_all_origin _ (traced step) TYPE_ANY (fun x => exists es, snd x = t ++ es)) as X.
    specialize (fun H => X H [c] u1 (b1, t) _ _ _ RD (ex_intro _ [] (eq_sym (app_nil_r t))) E). cbn beta iota in X. destruct X as [es X].
    { intros x e x' (es & ES) H. apply traced_snd in H. exists (es ++ [e]). rewrite H, ES, app_assoc. reflexivity. }
    exists es. split; [exact X|]. split; [|eapply loads_outcome; exact EA].
    destruct (pb_error b1) eqn:E1; [|reflexivity]. exfalso.
    pose proof (unmarshall_all_origin _ (traced step) TYPE_ANY (fun x => pb_error (fst x) = true)) as Y.
    specialize (fun H => Y H [c] u1 (b1, t) _ _ _ RD E1 E). cbn beta iota in Y. cbn [fst] in Y. rewrite Y in ER; [discriminate|].
    intros [x tx] e x' EX H. unfold traced in H. cbn [fst snd] in *. destruct e;
      try (rewrite bad_step in H by (auto; exact I); inversion H; subst; exact EX). cbn [pb_step] in H. inversion H; subst. exact EX.
  Qed.
End Safe.

Section Cut.
  Variable host : datetime -> datetime.
  Variable pass native : bool.
  Variable ver : version.
  Hypothesis HM : modern ver.
  Let HL : legal ver := modern_legal ver HM.
  Notation step := (pb_step host pass native).

  Lemma response_cut : forall v p wire a c, wfu ver v -> py_of host pass native v = Some p -> sent ver (response_calls v) = Ok wire -> wire = a ++ c ->
    exists q, loads host pass native a = PyOk (q, None).
  Proof.
    intros v p wire a c W EP ES EW. pose proof (builds_all host pass native v pb_init L_root eq_refl eq_refl) as D. rewrite EP in D. cbn [option_map done_to] in D. destruct D as [m D].
    set (b2 := pb_set m (place L_root p pb_init)) in *.
    destruct (response_decodes_any _ (traced step) TYPE_ANY ver HL HM v (pb_init, []) (pb_init, [EMethodResponse]) (b2, [EMethodResponse] ++ events v) [] W (or_introl eq_refl) eq_refl) as [Q1 Q2].
    { apply traced_replay. exact D. }
    unfold sent in ES. destruct (bin_run ver (response_calls v)) as [o f]. cbn [fst snd] in *. subst f. inversion ES; subst o. clear ES.
    assert (R : unmarshall_all _ (traced step) TYPE_ANY unm_init (pb_init, []) [a; c] = (mkUnm (idle ver 0 0) [] 1, (b2, [EMethodResponse] ++ events v), None)).
    { eapply all_of_lbig; [|apply idle_cinv; lia|exact Q2]. rewrite EW. cbn [concat]. rewrite app_nil_r. reflexivity. }
    destruct (cut_outcome host pass native a c _ _ _ R eq_refl) as (b1 & t & es & ET & E1 & O).
    assert (CT : called t = None) by (destruct t as [|e t]; [reflexivity|]; cbn [app] in ET; inversion ET; subst; reflexivity).
    destruct O as [(_ & q & n & -> & N)|[(_ & [X|(k & X & _)])|(n & x & msg & _ & X & _)]].
    - rewrite CT in N. subst n. eauto.
    - congruence.
    - congruence.
    - subst t. cbn [app] in ET. discriminate ET.
  Qed.

  Lemma call_cut : forall name n ps l wire a c, name_ok name -> py_decode false name = Some n -> Forall (wfu ver) ps -> items_of host pass native ps = Some l ->
    sent ver (call_calls name ps) = Ok wire -> wire = a ++ c ->
    exists q, loads host pass native a = PyOk (q, None) \/ loads host pass native a = PyOk (q, Some n).
  Proof.
    intros name n ps l wire a c NM DN W EP ES EW. set (b0 := fst (step pb_init (EMethodCall name))).
    assert (F : Forall (builds_py host pass native) ps) by (apply Forall_forall; intros; apply builds_all).
    pose proof (builds_items host pass native ps F b0 L_root [] [] eq_refl eq_refl) as D. rewrite EP in D. cbn [option_map done_to] in D. destruct D as [m D].
    set (b2 := pb_set m (pb_with [(L_root, PB_list ([] ++ l))] b0)) in *.
    destruct (call_decodes_any _ (traced step) TYPE_ANY ver HL HM name ps (pb_init, []) (b0, [EMethodCall name]) (b2, [EMethodCall name] ++ flat_map events ps) [] NM W (or_introl eq_refl) eq_refl) as [Q1 Q2].
    { apply traced_replay. exact D. }
    unfold sent in ES. destruct (bin_run ver (call_calls name ps)) as [o f]. cbn [fst snd] in *. subst f. inversion ES; subst o. clear ES.
    assert (R : unmarshall_all _ (traced step) TYPE_ANY unm_init (pb_init, []) [a; c] = (mkUnm (idle ver 0 0) [] 1, (b2, [EMethodCall name] ++ flat_map events ps), None)).
    { eapply all_of_lbig; [|apply idle_cinv; lia|exact Q2]. rewrite EW. cbn [concat]. rewrite app_nil_r. reflexivity. }
    destruct (cut_outcome host pass native a c _ _ _ R eq_refl) as (b1 & t & es & ET & E1 & O).
    assert (CT : called t = None \/ called t = Some name) by (destruct t as [|e t]; [auto|]; cbn [app] in ET; inversion ET; subst; auto).
    destruct O as [(_ & q & k & -> & N)|[(_ & [X|(k & X & Y)])|(k & x & msg & _ & X & _)]].
    - exists q. destruct CT as [CT|CT]; rewrite CT in N; [left; congruence|]. right. destruct N as (u & -> & N). congruence.
    - congruence.
    - destruct CT as [CT|CT]; rewrite CT in X; [discriminate|]. congruence.
    - subst t. cbn [app] in ET. discriminate ET.
  Qed.
End Cut.
