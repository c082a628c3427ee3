(** The binary unmarshaller that accepts calls only, with the builder of the Python binding, on any data. *)
From Coq Require Import Lia.
From Verif Require Import Base Value Unicode M_Marshal M_BinUnmarshal S_Events S_Value S_Wire M_Python S_Python L_Base L_BinUnmarshal L_BinSafety L_Nesting L_Morph L_RoundTrip
  L_Message L_Wire L_Origin L_PyText L_PyBuild L_PyRead L_Python L_PyLoad L_PySafe.

(** Responses and faults are refused before the builder is told. *)
Section Calls.
  Variable B : Type.
  Variables s1 s2 : B -> event -> B * option fail.
  Hypothesis same : forall b e, match e with EMethodResponse | EFault _ _ => True | _ => s1 b e = s2 b e end.
  Notation req := T_METHOD_CALL.

  Definition calm (c : core) : Prop := c_fault c = 0 /\ v_major (c_ver c) <= 3.
  Definition calm_res (r : bres B) : Prop := match r with Next _ c _ _ _ => calm c | _ => True end.

  Lemma emit_same : forall c b e, calm c -> match e with EMethodResponse | EFault _ _ => False | _ => True end ->
    emit B s1 c b e = emit B s2 c b e /\ fst (fst (emit B s2 c b e)) = c.
  Proof.
    intros c b e [C _] HE. unfold emit. rewrite C. cbn [Z.eqb]. assert (E : s1 b e = s2 b e) by (specialize (same b e); destruct e; tauto). rewrite E.
    destruct (s2 b e). split; reflexivity.
  Qed.
  Ltac emits c b e := let H := fresh in destruct (emit_same c b e ltac:(assumption) I) as [H ?]; rewrite H; clear H; destruct (emit B s2 c b e) as [[? ?] [?|]]; cbn [fst] in *; subst.
  Lemma scalar_same : forall c b e, calm c -> match e with EMethodResponse | EFault _ _ => False | _ => True end ->
    scalar B s1 c b e = scalar B s2 c b e /\ calm_res (scalar B s2 c b e).
  Proof.
    intros c b e C HE. unfold scalar. destruct (emit_same c b e C HE) as [H HC]. rewrite H. split; [reflexivity|].
    destruct (emit B s2 c b e) as [[c' b'] [f|]]; cbn [fst] in HC; subst; [exact I|exact C].
  Qed.
  Lemma value_type_same : forall known c b t, calm c -> value_type_arm B s1 known c b t = value_type_arm B s2 known c b t /\ calm_res (value_type_arm B s2 known c b t).
  Proof.
    intros known c b t C. unfold value_type_arm, throw.
    repeat match goal with |- context [if ?x then _ else _] => destruct x end; try (split; [reflexivity|first [exact I|exact C]]); try (apply scalar_same; [exact C|exact I]);
      destruct (versioned_length_size _ _); (split; [reflexivity|first [exact I|exact C]]).
  Qed.
  Lemma container_same : forall k c b d, calm c -> container_arm B s1 k c b d = container_arm B s2 k c b d /\ calm_res (container_arm B s2 k c b d).
  Proof.
    intros k c b d C. unfold container_arm, throw. destruct (_ <? 0); [split; [reflexivity|exact I]|]. destruct (negb _); [split; [reflexivity|exact I]|].
    destruct (_ <=? _); [split; [reflexivity|exact I]|].
    assert (HE : match (match k with KStruct => EOpenStruct (get_int64 d) | KArray => EOpenArray (get_int64 d) end) with EMethodResponse | EFault _ _ => False | _ => True end) by (destruct k; exact I).
    destruct (emit_same c b _ C HE) as [H HC]. rewrite H. destruct (emit B s2 c b _) as [[c1 b1] [f|]]; cbn [fst] in HC; subst c1; [split; [reflexivity|exact I]|].
    destruct (negb _); [split; [reflexivity|exact C]|].
    assert (HE2 : match (match k with KStruct => ECloseStruct | KArray => ECloseArray end) with EMethodResponse | EFault _ _ => False | _ => True end) by (destruct k; exact I).
    destruct (emit_same c b1 _ C HE2) as [H2 HC]. rewrite H2. destruct (emit B s2 c b1 _) as [[c1 b2] [f|]]; cbn [fst] in HC; subst c1; (split; [reflexivity|first [exact I|exact C]]).
  Qed.
  Lemma body_same : forall known c b w d, calm c -> body B s1 req known c b w d = body B s2 req known c b w d /\ calm_res (body B s2 req known c b w d).
  Proof.
    intros known c b w d C. unfold body, throw, length_arm, throw.
    destruct (c_state c);
      repeat match goal with |- context [match d with [] => _ | _ => _ end] => destruct d as [|? d] end;
      try (split; [reflexivity|exact I]);
      try (destruct (_ || _); [split; [reflexivity|exact I]|]); try (destruct (_ <? _) eqn:?; [split; [reflexivity|exact I]|]);
      try (apply scalar_same; [exact C|exact I]); try (apply container_same; exact C); try (apply value_type_same; exact C);
      try (destruct (emit_same c b (EMethodCall (ztake w d)) C I) as [H HC]; rewrite H; destruct (emit B s2 c b _) as [[c1 b1] [f|]]; cbn [fst] in HC; subst c1; (split; [reflexivity|first [exact I|exact C]]));
      try (destruct (emit_same c b (EMember (ztake w d)) C I) as [H HC]; rewrite H; destruct (emit B s2 c b _) as [[c1 b1] [f|]]; cbn [fst] in HC; subst c1; (split; [reflexivity|first [exact I|exact C]]));
      try (destruct (_ <=? _); (split; [reflexivity|first [exact I|exact C]])).
    - destruct (negb _); [split; [reflexivity|exact I]|].
      match goal with |- context [(3 <? b2z ?v) || ?y] => destruct ((3 <? b2z v) || y) eqn:E end; [split; [reflexivity|exact I]|]; split; [reflexivity|];
      apply orb_false_iff in E; destruct E as [E _]; apply Z.ltb_ge in E; destruct C as [C _]; split; [exact C|exact E].
    - change (T_METHOD_CALL =? TYPE_ANY) with false. change (T_METHOD_CALL =? T_METHOD_RESPONSE) with false. cbn [orb]. rewrite andb_false_r, orb_false_r.
      destruct (Z.shiftr (b2z b0) 3 =? T_METHOD_CALL) eqn:E; [|split; [reflexivity|exact I]]. apply Z.eqb_eq in E. rewrite E. cbn. split; [reflexivity|exact C].
    - destruct (_ =? 0); (split; [reflexivity|first [exact I|exact C]]).
    - destruct (in_struct c); [destruct (_ =? 0); (split; [reflexivity|first [exact I|exact C]])|apply value_type_same; exact C].
    - destruct (decode_datetime _ _); [apply scalar_same; [exact C|exact I]|split; [reflexivity|exact I]].
  Qed.
  Lemma dec_members_same : forall stk b, dec_members B s1 stk b = dec_members B s2 stk b.
  Proof.
    induction stk as [|[n k] r IH]; intro b; [reflexivity|]. cbn [dec_members]. destruct (negb _); [reflexivity|].
    assert (E : s1 b (match k with KStruct => ECloseStruct | KArray => ECloseArray end) = s2 b (match k with KStruct => ECloseStruct | KArray => ECloseArray end)) by (destruct k; [exact (same b ECloseStruct)|exact (same b ECloseArray)]).
    rewrite E. destruct (s2 b _) as [b' [f|]]; [reflexivity|apply IH].
  Qed.
  Lemma run_same : forall fuel known u b inp, calm (u_core u) -> run B s1 fuel req known u b inp = run B s2 fuel req known u b inp /\
    (snd (run B s2 fuel req known u b inp) = Finished -> calm (u_core (fst (fst (fst (run B s2 fuel req known u b inp)))))).
  Proof.
    induction fuel as [|fuel IH]; intros known u b inp C; cbn [run].
    - destruct (_ <=? _); (split; [reflexivity|]); [discriminate|intros _; exact C].
    - destruct (_ <=? _); [|split; [reflexivity|intros _; exact C]].
      set (d := match u_buffer u with [] => inp | _ => u_buffer u end).
      destruct (body_same known (u_core u) b (u_wanted u) d C) as [E K]. rewrite E. destruct (body B s2 req known (u_core u) b (u_wanted u) d) as [c' b' want fin| |c' b' f].
      + unfold decrement. rewrite dec_members_same. cbn [calm_res] in K. destruct fin.
        * destruct (dec_members B s2 (c_stack c') b') as [[st b2] [f|]]; [split; [reflexivity|discriminate]|]. apply IH. exact K.
        * apply IH. exact K.
      + split; [reflexivity|discriminate].
      + split; [reflexivity|discriminate].
  Qed.
  Lemma run_calm_stop : forall fuel u b inp, snd (run B s2 fuel req false u b inp) <> Stopped.
  Proof.
    induction fuel as [|fuel IH]; intros u b inp; cbn [run]; [destruct (_ <=? _); discriminate|]. destruct (_ <=? _); [|discriminate].
    set (d := match u_buffer u with [] => inp | _ => u_buffer u end).
    assert (NS : body B s2 req false (u_core u) b (u_wanted u) d <> Stop B).
    { assert (SC : forall c e, scalar B s2 c b e <> Stop B) by (intros c e; unfold scalar; destruct (emit B s2 c b e) as [[c1 b1] [f|]]; discriminate).
      assert (VT : forall c t, value_type_arm B s2 false c b t <> Stop B).
      { intros c t. unfold value_type_arm, throw. repeat match goal with |- context [if ?x then _ else _] => destruct x end; try discriminate; try apply SC; destruct (versioned_length_size _ _); discriminate. }
      assert (CT : forall k c t, container_arm B s2 k c b t <> Stop B).
      { intros k c t. unfold container_arm, throw. repeat match goal with |- context [if ?x then _ else _] => destruct x end; try discriminate;
          destruct (emit B s2 c b _) as [[c1 b1] [f|]]; try discriminate; destruct (emit B s2 c1 b1 _) as [[c2 b2] [f|]]; discriminate. }
      generalize (u_core u) (u_wanted u). intros c w. unfold body, throw, length_arm, throw. destruct (c_state c); repeat match goal with
        | |- context [if ?x then _ else _] => destruct x
        | |- scalar _ _ _ _ _ <> _ => apply SC
        | |- value_type_arm _ _ _ _ _ _ <> _ => apply VT
        | |- container_arm _ _ _ _ _ _ <> _ => apply CT
        | |- Next _ _ _ _ _ <> _ => discriminate
        | |- Bad _ _ _ _ <> _ => discriminate
        | |- context [match d with [] => _ | _ => _ end] => destruct d as [|? [|? [|? [|? ?]]]]
        | |- context [emit ?x ?y ?z ?v ?w] => destruct (emit x y z v w) as [[? ?] [?|]]
        | |- context [decode_datetime ?x ?y] => destruct (decode_datetime x y)
        end. }
    destruct (body B s2 req false (u_core u) b (u_wanted u) d) as [c' b' want fin| |c' b' f]; [|congruence|discriminate].
    destruct (decrement B s2 fin c' b') as [[c2 b2] [f|]]; [discriminate|apply IH].
  Qed.
  Lemma unmarshall_same : forall u b data, calm (u_core u) -> unmarshall B s1 req u b data = unmarshall B s2 req u b data /\
    (snd (unmarshall B s2 req u b data) = None -> calm (u_core (fst (fst (unmarshall B s2 req u b data))))).
  Proof.
    intros u b data C. unfold unmarshall. assert (C0 : calm (u_core (fst (driver_init u data)))) by (unfold driver_init; destruct (u_buffer u); exact C).
    destruct (driver_init u data) as [u0 inp]. cbn [fst] in C0. destruct (run_same (enough_fuel u0 inp) false u0 b inp C0) as [E K]. rewrite E.
    pose proof (run_calm_stop (enough_fuel u0 inp) u0 b inp) as NS.
    destruct (run B s2 (enough_fuel u0 inp) req false u0 b inp) as [[[u1 b1] rest] e]. cbn [fst snd] in *. split; [reflexivity|].
    intro H. destruct e; try discriminate; [apply K; reflexivity|congruence].
  Qed.
  Lemma unmarshall_all_same : forall pieces u b, calm (u_core u) -> unmarshall_all B s1 req u b pieces = unmarshall_all B s2 req u b pieces /\
    (snd (unmarshall_all B s2 req u b pieces) = None -> calm (u_core (fst (fst (unmarshall_all B s2 req u b pieces))))).
  Proof.
    induction pieces as [|d r IH]; intros u b C; [split; [reflexivity|intros _; exact C]|]. cbn [unmarshall_all].
    destruct (unmarshall_same u b d C) as [E K]. rewrite E. destruct (unmarshall B s2 req u b d) as [[u1 b1] [f|]]; [split; [reflexivity|discriminate]|].
    apply IH. apply K. reflexivity.
  Qed.
End Calls.

Lemma calm_init : calm (u_core unm_init).
Proof. split; cbn; lia. Qed.

Section Any.
  Variable host : datetime -> datetime.
  Variable pass native : bool.
  Notation step := (pb_step host pass native).
  Definition only_calls (b : pb) (e : event) : pb * option fail :=
    match e with EMethodResponse | EFault _ _ => (b, Some (Exn (StreamError ""))) | _ => step b e end.

  Lemma start_run : forall tr s, nest_run NStart tr = Some s -> s <> NStart -> tr <> [].
  Proof. intros tr s H N E. subst. cbn in H. congruence. Qed.

  (** However the data come: either an exception for a stream that is not well-formed, or, if the end is accepted, a call of a known version. *)
  Lemma call_any : forall pieces u b f, unmarshall_all pb step T_METHOD_CALL unm_init pb_init pieces = (u, b, f) ->
    match f with
    | Some f => exists m, f = Exn (StreamError m)
    | None => unm_finish u = Ok tt -> v_major (c_ver (u_core u)) <= 3 /\ pb_method b <> None
    end.
  Proof.
    intros pieces u b f E.
    destruct (unmarshall_all_same pb step only_calls ltac:(intros b0 e0; destruct e0; exact I || reflexivity) pieces unm_init pb_init calm_init) as [ES KC].
    rewrite ES in E. rewrite E in KC. cbn [fst snd] in KC. clear ES.
    rewrite (traced_unmarshall_all _ _ _ _ _ _ []) in E.
    destruct (unmarshall_all _ (traced only_calls) T_METHOD_CALL unm_init (pb_init, []) pieces) as [[u1 [b1 tr]] f1] eqn:ET. cbn [fst] in E. injection E as -> -> ->.
    destruct (unmarshall_all_nest pb only_calls T_METHOD_CALL pieces unm_init (pb_init, []) _ _ _ (nready_init _ _) ET) as [WN NR]. cbn [snd] in WN, NR.
    assert (OC : forall x e x', traced only_calls x e = (x', None) -> traced step x e = (x', None) /\ e <> EMethodResponse /\ forall n m, e <> EFault n m).
    { intros x e x' H. unfold traced in *. destruct e; cbn [only_calls] in H; try discriminate H; (split; [exact H|split; [discriminate|intros; discriminate]]). }
    set (P := fun x : pb * list event => pgood x /\ (well_nested (snd x) -> snd x = [] \/ L_PySafe.called (snd x) <> None)).
    assert (HP : forall x e x', P x -> traced only_calls x e = (x', None) -> P x').
    { intros x e x' [G C] H. destruct (OC _ _ _ H) as (HS & N1 & N2). split; [eapply pgood_step; eauto|]. intro WN'. right.
      apply traced_snd in H. rewrite H in *. specialize (C (well_nested_prefix _ _ WN')). destruct (snd x) as [|e0 es]; cbn [app L_PySafe.called] in *.
      - unfold well_nested in WN'. cbn [nest_run] in WN'. destruct e; cbn in *; try congruence.
      - destruct C as [C|C]; [discriminate|exact C]. }
    assert (P0 : P (pb_init, [])).
    { split; [|left; reflexivity]. intros s H. inversion H; subst. split; [reflexivity|split; [congruence|discriminate]]. }
    pose proof (unmarshall_all_origin _ (traced only_calls) T_METHOD_CALL P HP pieces unm_init (pb_init, []) u (b, tr) f ready_init P0 ET) as X.
    destruct f as [f|].
    - destruct X as [[[m ->] _]|([b0 es0] & e & [G _] & HS)]; [eauto|].
      pose proof HS as HS0. apply traced_snd in HS. cbn [snd] in HS. subst tr. unfold well_nested in WN. rewrite nest_run_app in WN.
      destruct (nest_run NStart es0) as [s0|] eqn:ES0; [|congruence]. cbn [nest_run] in WN. destruct (nest_step s0 e) as [s1|] eqn:EN; [|congruence].
      destruct (G s0 ES0) as (R & _). cbn [fst] in R. destruct (pb_step_rel host pass native s0 e s1 b0 EN R) as [_ NF].
      unfold traced in HS0. cbn [fst snd] in HS0. destruct e; cbn [only_calls] in HS0;
        try (match type of HS0 with context [pb_step _ _ _ b0 ?e] => destruct (step b0 e) as [b2 [f2|]]; [|discriminate HS0]; injection HS0 as _ ->; cbn [snd] in NF;
             destruct (NF f eq_refl) as (_ & _ & n0 & msg0 & X & _); discriminate X end); inversion HS0; subst; eauto.
    - intro HF. destruct (KC eq_refl) as [KF KV]. split; [exact KV|].
      destruct X as [G C]. cbn [fst snd] in *. destruct (NR eq_refl) as (_ & s & ES & HR). cbn [snd] in ES. destruct (G s ES) as (_ & M & _). cbn [fst snd] in M.
      assert (NS : s <> NStart).
      { unfold unm_finish in HF. destruct (dstate_eqb (c_state (u_core u)) S_VALUE_TYPE) eqn:EV; [|discriminate]. unfold head_rel in HR.
        destruct (c_state (u_core u)); try discriminate EV. cbn [head_state] in HR. rewrite KF in HR. cbn [Z.eqb] in HR. destruct HR as [-> _]. discriminate. }
      rewrite (M NS). destruct (C WN) as [->|Y]; [|exact Y]. exfalso. apply NS. cbn in ES. congruence.
  Qed.
End Any.
