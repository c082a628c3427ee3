(** The Python client and any response. *)
From Coq Require Import Lia.
From Verif Require Import Base Value Text Unicode M_Marshal M_BinUnmarshal M_TreeBuilder M_Base64 M_Iso M_Json M_Url M_Http M_HttpIO M_HttpWriter M_Registry M_Server M_Xml M_XmlUm M_Client
  M_Python M_PyRegistry M_PyServer M_PyClient S_Events S_Url S_Http S_Server S_Client S_Python S_PyRegistry S_PyServer S_PyClient L_Base L_BinUnmarshal L_BinSafety L_Nesting L_Morph L_RoundTrip L_Message L_Wire L_Origin
  L_HttpIO L_HttpIO2 L_HttpIO3 L_HttpIO4 L_HttpIO5 L_UrlSafe L_ServerUrl L_Server5 L_Client L_Python
  L_PyText L_PyBuild L_PyRead L_PyLoad L_PySafe L_PyCall L_PyRegistry L_ReadAny L_PyServer L_PyServer2 L_PyServer3 L_PyClient L_PyClient2 L_PyClient3 P_PyServer.

(** ** The binary unmarshaller: the version is a known one *)
Section Versions.
  Variable B : Type.
  Variable step : B -> event -> B * option fail.
  Variable req : Z.
  Definition low (c : core) : Prop := v_major (c_ver c) <= 3.
  Definition low_res (r : bres B) : Prop := match r with M_BinUnmarshal.Next _ c _ _ _ => low c | _ => True end.
  Lemma emit_low : forall c b e, low c -> low (fst (fst (emit B step c b e))).
  Proof.
    intros c b e L. unfold emit. destruct (_ =? 0); [destruct (step b e); exact L|]. unfold fault_step.
    repeat match goal with |- context [if ?x then _ else _] => destruct x | |- context [match e with _ => _ end] => destruct e | |- context [step ?x ?y] => destruct (step x y) as [? [?|]] end; exact L.
  Qed.
  Lemma scalar_low : forall c b e, low c -> low_res (scalar B step c b e).
  Proof. intros c b e L. unfold scalar. pose proof (emit_low c b e L) as X. destruct (emit B step c b e) as [[c1 b1] [f|]]; [exact I|exact X]. Qed.
  Lemma type_low : forall known c b t, low c -> low_res (value_type_arm B step known c b t).
  Proof.
    intros known c b t L. unfold value_type_arm, throw.
    repeat match goal with |- context [if ?x then _ else _] => destruct x end; try exact I; try exact L; try (apply scalar_low; exact L);
      destruct (versioned_length_size _ _); first [exact I|exact L].
  Qed.
  Lemma container_low : forall k c b d, low c -> low_res (container_arm B step k c b d).
  Proof.
    intros k c b d L. unfold container_arm, throw. destruct (_ <? 0); [exact I|]. destruct (negb _); [exact I|]. destruct (_ <=? _); [exact I|].
    match goal with |- context [emit B step c b ?e] => pose proof (emit_low c b e L) as X; destruct (emit B step c b e) as [[c1 b1] [f|]] end; [exact I|]. cbn [fst] in X.
    destruct (negb _); [exact X|].
    match goal with |- context [emit B step c1 b1 ?e] => pose proof (emit_low c1 b1 e X) as Y; destruct (emit B step c1 b1 e) as [[c2 b2] [f|]] end; [exact I|exact Y].
  Qed.
  Lemma body_low : forall known c b w d, low c -> low_res (body B step req known c b w d).
  Proof.
    intros known c b w d L. unfold body, throw, length_arm, throw. destruct (c_state c);
      repeat match goal with
        | |- True => exact I
        | |- low_res (scalar _ _ _ _ _) => apply scalar_low; exact L
        | |- low_res (value_type_arm _ _ _ _ _ _) => apply type_low; exact L
        | |- low_res (container_arm _ _ _ _ _ _) => apply container_low; exact L
        | |- low_res (Bad _ _ _ _) => exact I
        | |- low_res (M_BinUnmarshal.Next _ (set_state _ (set_ver _ _)) _ _ _) => fail 1
        | |- low_res (M_BinUnmarshal.Next _ _ _ _ _) => first [exact L|assumption]
        | |- context [match d with [] => _ | _ => _ end] => destruct d as [|? [|? [|? [|? ?]]]]
        | |- context [(3 <? b2z ?v) || ?y] => let E := fresh "E" in destruct ((3 <? b2z v) || y) eqn:E; [exact I|apply orb_false_iff in E; destruct E as [E _]; apply Z.ltb_ge in E; exact E]
        | |- context [emit B step c b ?e] => let X := fresh in pose proof (emit_low c b e L) as X; destruct (emit B step c b e) as [[? ?] [?|]]; cbn [fst] in X
        | |- context [decode_datetime ?x ?y] => destruct (decode_datetime x y)
        | |- context [if ?x then _ else _] => destruct x
        end.
  Qed.
  Lemma run_low : forall fuel known u b inp, low (u_core u) -> snd (run B step fuel req known u b inp) = Finished \/ snd (run B step fuel req known u b inp) = Stopped -> low (u_core (fst (fst (fst (run B step fuel req known u b inp))))).
  Proof.
    induction fuel as [|fuel IH]; intros known u b inp L; cbn [run].
    - destruct (_ <=? _); [intros [X|X]; discriminate|intros _; exact L].
    - destruct (_ <=? _); [|intros _; exact L].
      set (d := match u_buffer u with [] => inp | _ => u_buffer u end).
      pose proof (body_low known (u_core u) b (u_wanted u) d L) as K. destruct (body B step req known (u_core u) b (u_wanted u) d) as [c' b' want fin| |c' b' f]; [|intros _; exact L|intros [X|X]; discriminate].
      unfold decrement. cbn [low_res] in K. destruct fin; [|apply IH; exact K].
      destruct (dec_members B step (c_stack c') b') as [[st b2] [f|]]; [intros [X|X]; discriminate|]. apply IH. exact K.
  Qed.
  Lemma unmarshall_low : forall u b data, low (u_core u) -> snd (unmarshall B step req u b data) = None -> low (u_core (fst (fst (unmarshall B step req u b data)))).
  Proof.
    intros u b data L. unfold unmarshall. assert (L0 : low (u_core (fst (driver_init u data)))) by (unfold driver_init; destruct (u_buffer u); exact L).
    destruct (driver_init u data) as [u0 inp]. cbn [fst] in L0. pose proof (run_low (enough_fuel u0 inp) false u0 b inp L0) as K.
    destruct (run B step (enough_fuel u0 inp) req false u0 b inp) as [[[u1 b1] rest] e] eqn:E. cbn [fst snd] in *. intro H.
    assert (K2 : low (u_core u1)) by (apply K; destruct e; try discriminate; auto). exact K2.
  Qed.
  Lemma unmarshall_all_low : forall pieces u b, low (u_core u) -> snd (unmarshall_all B step req u b pieces) = None -> low (u_core (fst (fst (unmarshall_all B step req u b pieces)))).
  Proof.
    induction pieces as [|d r IH]; intros u b L; [intros _; exact L|]. cbn [unmarshall_all].
    pose proof (unmarshall_low u b d L) as K. destruct (unmarshall B step req u b d) as [[u1 b1] [f|]]; [discriminate|].
    apply IH. apply K. reflexivity.
  Qed.
End Versions.

(** ** Binary responses *)
Section Binary.
  Variable host : datetime -> datetime.
  Variable pass native : bool.
  Notation step := (pb_step host pass native).

  (** However the data come: an exception for a stream that is not well-formed; undefined behaviour, if they are a fault whose message is no text; or a known version. *)
  Lemma response_any : forall pieces u b tr f, unmarshall_all _ (traced step) T_METHOD_RESPONSE unm_init (pb_init, []) pieces = (u, (b, tr), f) ->
    match f with
    | Some f => (exists m, f = Exn (StreamError m)) \/ (f = Undef /\ exists n msg, tr = [EFault n msg] /\ py_decode false msg = None)
    | None => v_major (c_ver (u_core u)) <= 3
    end.
  Proof.
    intros pieces u b tr f E.
    destruct (unmarshall_all_nest pb step T_METHOD_RESPONSE pieces unm_init (pb_init, []) _ _ _ (nready_init _ _) E) as [WN _]. cbn [snd] in WN.
    pose proof (unmarshall_all_origin _ (traced step) T_METHOD_RESPONSE (pgood)) as X.
    specialize (X (fun x e x' G H => pgood_step host pass native x e x' G H) pieces unm_init (pb_init, []) u (b, tr) f ready_init).
    assert (G0 : pgood (pb_init, [])) by (intros s H; inversion H; subst; split; [reflexivity|split; [congruence|discriminate]]).
    specialize (X G0 E). unfold well_nested in WN. destruct (nest_run NStart tr) as [s|] eqn:ES; [|congruence].
    destruct f as [f|].
    2:{ pose proof (unmarshall_all_low _ (traced step) T_METHOD_RESPONSE pieces unm_init (pb_init, [])) as L. rewrite E in L. cbn [fst snd] in L. apply L; [cbn; unfold low; cbn; lia|reflexivity]. }
    destruct X as [[[m ->] _]|([b0 es0] & e & G & HS)]; [left; eauto|]. right.
    pose proof HS as HS0. apply traced_snd in HS. cbn [snd] in HS. subst tr. rewrite nest_run_app in ES. destruct (nest_run NStart es0) as [s0|] eqn:ES0; [|discriminate].
    cbn [nest_run] in ES. destruct (nest_step s0 e) as [s1|] eqn:EN; [|discriminate]. destruct (G s0 ES0) as (R & _). cbn [fst] in R.
    destruct (pb_step_rel host pass native s0 e s1 b0 EN R) as [_ NF]. unfold traced in HS0. cbn [fst snd] in HS0. destruct (step b0 e) as [b2 f2]. inversion HS0; subst.
    destruct (NF f eq_refl) as (-> & -> & n & msg & -> & D). split; [reflexivity|]. exists n, msg. split; [|exact D].
    assert (es0 = []); [|subst; reflexivity]. destruct es0 as [|e0 es0]; [reflexivity|]. exfalso.
    clear - ES0. cbn [nest_run] in ES0. destruct (nest_step NStart e0) as [s1|] eqn:E0; [|discriminate].
    assert (Y : forall es s1 s2, s1 <> NStart -> nest_run s1 es = Some s2 -> s2 <> NStart).
    { clear. induction es as [|e es IH]; intros s1 s2 N H; cbn [nest_run] in H; [inversion H; subst; exact N|]. destruct (nest_step s1 e) as [s3|] eqn:E; [|discriminate].
      eapply IH; [|exact H]. intro. subst. destruct s1 as [|o|]; [congruence| |discriminate]. cbn [nest_step] in E. destruct e; try discriminate;
        try (destruct (take_item o); discriminate); unfold name_item, close_item in E; destruct o as [|[[n [|]] [|]] r]; try discriminate;
        repeat match type of E with context [if ?b then _ else _] => destruct b end; discriminate. }
    apply (Y es0 s1 NStart); auto. intro. subst. destruct e0; cbn in E0; discriminate.
  Qed.
  Lemma binary_troubles : forall pieces, py_troubles (pbin_um step T_METHOD_RESPONSE) pieces ->
    exists u b n msg, ~ is_text msg /\ unmarshall_all _ (traced step) T_METHOD_RESPONSE unm_init (pb_init, []) pieces = (u, (b, [EFault n msg]), Some Undef).
  Proof.
    intros pieces T. destruct (unmarshall_all _ (traced step) T_METHOD_RESPONSE unm_init (pb_init, []) pieces) as [[u [b tr]] f] eqn:E. pose proof (response_any _ _ _ _ _ E) as R.
    assert (HO : hand_over (pu_take (pbin_um step T_METHOD_RESPONSE)) (pu_init (pbin_um step T_METHOD_RESPONSE)) pieces = ((u, b), f)).
    { change (pu_init (pbin_um step T_METHOD_RESPONSE)) with (unm_init, pb_init). rewrite hand_over_bin. rewrite (traced_unmarshall_all _ _ _ _ _ _ []), E. reflexivity. }
    destruct T as [s f0 H K|s s' x f0 H HF X K|s s' H HF V]; rewrite HO in H; injection H as <- ->.
    - destruct R as [[m ->]|(-> & n & msg & -> & D)]; [destruct K|]. exists u, b, n, msg. split; [|reflexivity]. intro T. apply text_decode in T. destruct T as [w T]. congruence.
    - exfalso. cbn [pu_finish pbin_um fst] in HF. injection HF as _ <-. destruct (unm_finish_any u _ eq_refl) as [O|[m O]]; rewrite O in X; destruct X as [[X _]|(e & X & ->)]; try discriminate.
      injection X as <-. exact K.
    - exfalso. cbn [pu_finish pbin_um fst] in HF. injection HF as <- _. cbn [pu_version pbin_um fst] in V. lia.
  Qed.
End Binary.

(** ** Reading a response *)
Section Reading.
  Variable ums : bool -> pyum.
  Definition py_in_part (whole : bytes) : Prop := exists binary pieces, part_of (concat pieces) whole /\ py_troubles (ums binary) pieces.
  Definition py_given (k : bool) (whole : bytes) (s : pu_state (ums k)) (p : bytes) : Prop :=
    exists pieces, hand_over (pu_take (ums k)) (pu_init (ums k)) pieces = (s, None) /\ part_of (concat pieces ++ p) whole.
  Lemma py_given_ends : forall k whole s p q, py_given k whole s p -> ends q p -> py_given k whole s q.
  Proof. intros k whole s p q (ps & E & P) H. exists ps. split; [exact E|]. eapply part_trans; [exact P|]. apply part_app, part_ends, H. Qed.
  Lemma py_given_take : forall k whole s d p s' f, py_given k whole s (d ++ p) -> pu_take (ums k) s d = (s', f) ->
    match f with None => py_given k whole s' p | Some f => kills f -> py_in_part whole end.
  Proof.
    intros k whole s d p s' f (ps & E & P) H. assert (X : hand_over (pu_take (ums k)) (pu_init (ums k)) (ps ++ [d]) = (s', f)).
    { rewrite hand_over_app, E. cbn [hand_over]. rewrite H. destruct f; reflexivity. }
    assert (C : concat (ps ++ [d]) = concat ps ++ d) by (rewrite concat_app; cbn [concat]; rewrite app_nil_r; reflexivity).
    destruct f as [f|].
    - intro U. exists k, (ps ++ [d]). split; [|eapply py_trouble_pieces; eassumption]. rewrite C. eapply part_trans; [exact P|]. apply part_app, part_left.
    - exists (ps ++ [d]). split; [exact X|]. rewrite C, <- app_assoc. exact P.
  Qed.
  Lemma status_ends : forall fuel s s' x, read_status fuel s = (s', x) -> ends (M_HttpIO.pending s') (M_HttpIO.pending s).
  Proof.
    induction fuel as [|fuel IH]; intros s s' x H; cbn [read_status] in H; [inversion H; subst; exists []; reflexivity|].
    destruct (read_line_opt true (-1) false s) as [s1 y] eqn:E. pose proof (line_opt_ends _ _ _ _ _ _ E) as EN. destruct y as [l|e|]; cbn [sbind] in H; [|inversion H; subst; exact EN..].
    destruct l as [|c l]; [apply IH in H; eapply ends_trans; eassumption|].
    destruct (split_by_space _ 3) as [|? [|? [|? [|? ?]]]]; try (inversion H; subst; exact EN). destruct (negb _); [inversion H; subst; exact EN|]. destruct (negb _); inversion H; subst; exact EN.
  Qed.
  Lemma status_any : forall fuel s s' x, (List.length (M_HttpIO.pending s) < fuel)%nat -> read_status fuel s = (s', x) -> match x with Ok _ => True | Err e => ~ kills (Exn e) | UB => False end.
  Proof.
    induction fuel as [|fuel IH]; intros s s' x F H; [lia|]. cbn [read_status] in H.
    destruct (read_line_any true (-1) false s) as (p & v & y & E & U & L & _ & N). pose proof (line_protocol _ _ _ _ _ _ E) as P. rewrite E in H. cbn [sbind] in H.
    destruct y as [l|e|]; cbn [sbind] in H; [|inversion H; subst; destruct P as [c ->]; exact (fun X => X)|congruence]. specialize (N l eq_refl eq_refl).
    destruct l as [|c l]; [apply IH in H; [exact H|cbn; lia]|].
    destruct (split_by_space _ 3) as [|? [|? [|? [|? ?]]]]; try (inversion H; subst; exact (fun X => X)). destruct (negb _); [inversion H; subst; exact (fun X => X)|]. destruct (negb _); inversion H; subst; [exact (fun X => X)|exact I].
  Qed.
  (** A known version, or an exception that is caught, or the body is one of the troublesome ones. *)
  Lemma py_response_any : forall keep must s c fd x st, py_read_response ums keep must s = (c, fd, x, st) ->
    (match x with Ok b => v_major (snd c) <= 3 | Err e => ~ kills (Exn e) | UB => False end) \/ py_in_part (M_HttpIO.pending s).
  Proof.
    intros keep must s c fd x st H. unfold py_read_response in H.
    destruct (read_status (S (List.length (M_HttpIO.pending s))) s) as [s1 y1] eqn:E1. pose proof (status_ends _ _ _ _ E1) as N1. apply status_any in E1; [|lia].
    destruct y1 as [protocol|e|]; [|inversion H; subst; left; exact E1|contradiction].
    destruct (read_header false [] s1) as [s2 y2] eqn:E2. pose proof (header_ends _ _ _ _ _ _ E2) as N2. apply read_header_protocol in E2 as [P2 _].
    destruct y2 as [h|e|]; [|destruct P2 as [d ->]; inversion H; subst; left; exact (fun X => X)|contradiction].
    destruct (response_um _) as [k|]; [|inversion H; subst; left; exact (fun X => X)].
    destruct (read_content (pu_take (ums k)) (-1) h false _) as [r y3] eqn:E3.
    apply (content_fares (pu_take (ums k)) (py_given k (M_HttpIO.pending s)) (fun f => kills f -> py_in_part (M_HttpIO.pending s))) in E3.
    2:{ intros; eapply py_given_ends; eassumption. }
    2:{ intros k0 d p k' f A B. exact (py_given_take _ _ _ _ _ _ _ A B). }
    2:{ exists []. cbn [r_sink r_sock concat app]. split; [reflexivity|]. apply part_ends. eapply ends_trans; eassumption. }
    assert (DEC : forall f, {kills f} + {~ kills f}) by (intros [[]|]; cbn; auto).
    destruct y3 as [h2|e|].
    - destruct E3 as (ps & HO & PT). assert (PP : part_of (concat ps) (M_HttpIO.pending s)) by (eapply part_trans; [exact PT|apply part_left]).
      destruct (pu_finish (ums k) (r_sink r)) as [k2 y4] eqn:EF. destruct y4 as [[]|e|].
      + inversion H; subst. cbn [snd]. destruct (Z.ltb_spec 3 (v_major (pu_version (ums k) k2))) as [V|V]; [|left; exact V].
        right. exists k, ps. split; [exact PP|]. eapply py_trouble_version; eauto.
      + inversion H; subst. destruct (DEC (Exn e)) as [U|U]; [|left; exact U]. right. exists k, ps. split; [exact PP|]. eapply py_trouble_end; eauto.
      + right. exists k, ps. split; [exact PP|]. eapply py_trouble_end with (f := Undef); eauto; exact I.
    - inversion H; subst. destruct E3 as [[d ->]|E3]; [left; exact (fun X => X)|]. destruct (DEC (Exn e)) as [U|U]; [right; exact (E3 U)|left; exact U].
    - right. exact (E3 I).
  Qed.
End Reading.
