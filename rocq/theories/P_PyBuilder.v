(** C112: the argument [datetimeBuilder] of [loads]. *)
From Coq Require Import Lia.
From Verif Require Import Base Value Unicode M_Marshal M_BinUnmarshal S_Value S_Wire M_Python M_PyBuilder S_Python S_PyBuilder L_Base L_Bits L_BinUnmarshal L_RoundTrip
  L_Wire L_JsText L_PyText L_PyBuild L_PyRead L_Python L_PyLoad L_PyBuilder.

Lemma s32_same : forall z, in_s32 z -> s32 z = z.
Proof. intros. apply s32_id. exact H. Qed.
Lemma given_same : forall d, in_s32 (dt_unix d) -> given d = d.
Proof. intros [] H. unfold given. cbn in *. rewrite s32_same by exact H. reflexivity. Qed.
Lemma made_given : forall W E call ds (w : W), Forall (fun d => in_s32 (dt_unix d)) ds -> made W E (fun w d => call w (given d)) w ds = made W E call w ds.
Proof.
  intros W E call ds. induction ds as [|d ds IH]; intros w F; [reflexivity|]. inversion F; subst. cbn [made]. rewrite given_same by assumption.
  destruct (call w d) as [w1 [p|x]]; [|reflexivity]. rewrite IH by assumption. reflexivity.
Qed.

(** A response: the callable is called once for each date, in their order, until it raises an exception, which [loads] raises then;
    otherwise what it returned stands where the dates were. *)
Theorem C112_responses_partial : forall host pass native (W E : Type) (call : W -> datetime -> W * (py + E)) ver w v,
  (forall w d w' c m, call w d <> (w', inl (PyFault c m))) ->
  modern ver -> wf ver v -> texts v -> no_nul_names v -> Forall (fun d => in_s32 (dt_unix d)) (dates v) ->
  exists wire, sent ver (response_calls v) = Ok wire /\
  match made W E call w (dates v) with
  | (w', inl ps) => exists p, filled native v ps p /\ hooked_loads host pass native W E call w wire = (w', H_done (PyOk (p, None)))
  | (w', inr x) => hooked_loads host pass native W E call w wire = (w', H_raised x)
  end.
Proof.
  intros host pass native W E call ver w v NF HM WF T N R. rewrite <- (made_given W E call (dates v) w R).
  apply (hooked_response host pass native W E call ver HM).
  - intros w0 d w' p C F. destruct p; try exact F. exact (NF _ _ _ _ _ C).
  - apply wf_wfu. exact WF.
  - exact T.
  - eapply wf_uniq. exact WF.
  - exact N.
Qed.
Print Assumptions C112_responses_partial.

(** A call. *)
Theorem C112_calls_partial : forall host pass native (W E : Type) (call : W -> datetime -> W * (py + E)) ver w name n ps,
  modern ver -> name_ok name -> same_str name n -> Forall (wf ver) ps -> Forall texts ps -> Forall no_nul_names ps -> Forall (fun d => in_s32 (dt_unix d)) (flat_map dates ps) ->
  exists wire, sent ver (call_calls name ps) = Ok wire /\
  match made W E call w (flat_map dates ps) with
  | (w', inl qs) => exists l, filled_items native ps qs l /\ hooked_loads host pass native W E call w wire = (w', H_done (PyOk (PyTuple l, Some n)))
  | (w', inr x) => hooked_loads host pass native W E call w wire = (w', H_raised x)
  end.
Proof.
  intros host pass native W E call ver w name n ps HM NO NS WF T N R. rewrite <- (made_given W E call (flat_map dates ps) w R).
  apply (hooked_call host pass native W E call ver HM); auto.
  - eapply Forall_impl; [|exact WF]. apply wf_wfu.
  - eapply Forall_impl; [|exact WF]. apply wf_uniq.
Qed.
Print Assumptions C112_calls_partial.

(** Refuted: a time of more than 32 bits is cut; the callable gets another one, for every such date. *)
Theorem C112_time_refuted : forall host pass native (W E : Type) (call : W -> datetime -> W * (py + E)) ver w d,
  (forall w d w' c m, call w d <> (w', inl (PyFault c m))) ->
  modern ver -> wf ver (VDateTime d) -> ~ in_s32 (dt_unix d) ->
  let d' := mkDT (dt_year d) (dt_month d) (dt_day d) (dt_hour d) (dt_min d) (dt_sec d) (dt_wday d) (s32 (dt_unix d)) (dt_tz d) in
  dt_unix d' <> dt_unix d /\
  exists wire, sent ver (response_calls (VDateTime d)) = Ok wire /\
  hooked_loads host pass native W E call w wire =
    match call w d' with (w', inl p) => (w', H_done (PyOk (p, None))) | (w', inr x) => (w', H_raised x) end.
Proof.
  intros host pass native W E call ver w d NF HM WF R. cbv zeta. split.
  - cbn [dt_unix]. intro X. apply R. rewrite <- X. unfold in_s32. pose proof (signed_range 32 (dt_unix d) ltac:(lia)). unfold s32. lia.
  - assert (NF' : forall w0 d0 w' p, call w0 d0 = (w', inl p) -> ~ a_fault p) by (intros w0 d0 w' p C F; destruct p; try exact F; exact (NF _ _ _ _ _ C)).
    destruct (hooked_response host pass native W E call ver HM NF' w (VDateTime d) (wf_wfu _ _ WF) I I I) as (wire & S & L).
    exists wire. split; [exact S|]. cbn [dates made] in L. unfold given in L. destruct (call w _) as [w' [p|x]]; [|exact L].
    destruct L as (q & F & L). rewrite L. inversion F; subst; reflexivity.
Qed.
Print Assumptions C112_time_refuted.

(** A callable that returns the year and counts its calls, and raises an exception at the third. *)
Definition years (n : Z) (d : datetime) : Z * (py + Z) := if n =? 2 then (n + 1, inr 7) else (n + 1, inl (PyInt (dt_year d))).
Definition day (y u : Z) : datetime := mkDT y 7 3 9 46 40 3 u 0.
Lemma day_ok : forall y u, 1600 <= y <= 2623 -> - 2 ^ 63 <= u < 2 ^ 63 -> dt_ok 64 (day y u).
Proof. intros. unfold dt_ok, day. cbn [dt_year dt_month dt_day dt_hour dt_min dt_sec dt_wday dt_unix dt_tz]. repeat split; try lia. exists 0. lia. Qed.
Example C112_sample : forall host,
  let ver := mkVer 3 0 in
  let v := VStruct [(str "from", VDateTime (day 2024 1720000000)); (str "log", VArray [VInt 5; VDateTime (day 2025 1751535999)])] in
  let w := VArray [VDateTime (day 2024 1720000000); VDateTime (day 2025 1751535999); VDateTime (day 2026 1783071999); VDateTime (day 2027 1783071999)] in
  (forall w d w' c m, years w d <> (w', inl (PyFault c m))) /\ wf ver v /\ texts v /\ no_nul_names v /\ Forall (fun d => in_s32 (dt_unix d)) (dates v) /\
  match sent ver (response_calls v), sent ver (response_calls w), sent ver (response_calls (VDateTime (day 2050 2541058000))) with
  | Ok a, Ok b, Ok c =>
      hooked_loads host false true Z Z years 0 a =
        (2, H_done (PyOk (PyDict [(PyStr (map b2z (str "from")), PyInt 2024); (PyStr (map b2z (str "log")), PyList [PyInt 5; PyInt 2025])], None))) /\
      hooked_loads host false true Z Z years 0 b = (3, H_raised 7) /\
      hooked_loads host false true Z Z (fun w d => (w, inl (PyInt (dt_unix d)))) 0 c = (0, H_done (PyOk (PyInt (-1753909296), None)))
  | _, _, _ => False
  end.
Proof.
  intros host. cbv zeta. split; [|split; [|split; [|split; [|split]]]].
  - intros w d w' c m. unfold years. destruct (w =? 2); intros X; discriminate X.
  - cbn [wf]. change (unix_bits (mkVer 3 0)) with 64. split; [split; reflexivity + discriminate|]. split.
    { split; [|split; [|exact I]].
      - intros k x [X|[]]. injection X as <- <-. reflexivity.
      - intros k x []. }
    split; [split; discriminate|]. split; [apply day_ok; lia|]. split; [split; discriminate|]. split; [|exact I]. split; [split; reflexivity + discriminate|].
    split; [unfold in_s64; lia|]. split; [apply day_ok; lia|exact I].
  - cbn [texts]. assert (A: forall s, forallb (fun c => b2z c <? 128) s = true -> is_text s).
    { intros s H. exists (map b2z s). apply ascii_text. rewrite forallb_forall in H. destruct (existsb _ s) eqn:X; [|reflexivity]. apply existsb_exists in X as (c & I & C). specialize (H c I). lia. }
    repeat split; apply A; reflexivity.
  - cbn [no_nul_names]. repeat split; intros X; repeat (destruct X as [X|X]; [discriminate X|]); exact X.
  - cbn [dates flat_map snd app]. repeat (apply Forall_cons; [unfold in_s32; cbn [day dt_unix]; lia|]). apply Forall_nil.
  - vm_compute. repeat split.
Qed.
