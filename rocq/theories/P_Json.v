(** C29, C30: JSON output. *)
From Coq Require Import Lia.
From Verif Require Import Base Value Text M_Marshal M_Json S_Base64 S_Json L_Base L_Text L_Json.

(** C29: a written string is one string token, whatever follows, and denotes the string; it has no raw control
    characters. *)
Theorem C29_json_string : forall s, exists t,
  json_quote s = x22 :: t
  /\ (forall rest, js_string (t ++ rest) = Some (s, rest))
  /\ Forall (fun c => 32 <= b2z c) t.
Proof.
  intro s. exists (flat_map quote_char s ++ [x22]). split; [reflexivity|]. split.
  - intro rest. rewrite <- app_assoc. apply js_string_quote.
  - apply Forall_app. split; [|repeat constructor; vm_compute; congruence].
    apply Forall_forall. intros c I. apply in_flat_map in I. destruct I as (x & _ & I). revert c I. apply Forall_forall.
    destruct x; vm_compute; repeat constructor; congruence.
Qed.
Print Assumptions C29_json_string.

Example C29_sample : json_quote (str "a""\" ++ [x00; x0a; xff]) = str """a\""\\\u0000\n" ++ [xff] ++ str """".
Proof. vm_compute. reflexivity. Qed.

Lemma finite_show : forall fin d, finite d -> show_double fin d = fin d.
Proof. intros fin d H. unfold show_double, finite in *. apply Z.eqb_neq in H. rewrite H. reflexivity. Qed.

Lemma doubles_impl : forall (P Q : Z -> Prop) v, (forall d, P d -> Q d) -> doubles P v -> doubles Q v.
Proof.
  intros P Q v PQ. induction v as [z|b| |d|s|s|s|n cs|d|m IH|l IH|v IH] using value_nested_ind; intros D; try exact I.
  - apply PQ. exact D.
  - apply doubles_struct. apply doubles_struct in D. destruct D as [D0 D]. split; auto.
    clear D0. induction IH; inversion D; subst; constructor; auto.
  - apply doubles_array. apply doubles_array in D. destruct D as [D0 D]. split; auto.
    clear D0. induction IH; inversion D; subst; constructor; auto.
  - exact (IH D).
Qed.

Lemma shows_ext : forall f g v, doubles (fun d => f d = g d) v -> forall j, shows f v j -> shows g v j.
Proof.
  intros f g. induction v as [z|b| |d|s|s|s|n cs|d|m IH|l IH|v IH] using value_nested_ind; intros D j S; inversion S; subst;
    try (constructor; auto; fail).
  - cbn in D. rewrite D. constructor.
  - apply doubles_struct in D. destruct D as [_ D]. constructor. clear S. revert js H0.
    induction IH as [|kv m H IH IHm]; intros js F; inversion F as [|? ? ? ? [F1 F2] F3]; subst; constructor; inversion D; subst; auto.
  - apply doubles_array in D. destruct D as [_ D]. constructor. clear S. revert js H0.
    induction IH as [|x l H IH IHm]; intros js F; inversion F as [|? ? ? ? F1 F3]; subst; constructor; inversion D; subst; auto.
Qed.

(** C30: for every value without infinities and NaNs the output of a response is a JSON text, and it reads
    back as the value.  [fin] is the printing of finite doubles, which must be a JSON number.  Missing:
    infinities and NaNs, see below. *)
Theorem C30_json_partial : forall fin v, (forall d, finite d -> js_number (fin d) = true) -> doubles finite v ->
  exists t j, json_output fin (response_calls v) = Ok t /\ js_read t = Some j /\ shows fin v j.
Proof.
  intros fin v FN D.
  assert (DG : doubles (good fin) v).
  { eapply doubles_impl; [|exact D]. intros d H. unfold good. rewrite finite_show by auto. auto. }
  exists (jtext fin v). destruct (reads_all fin v DG (Datatypes.S (List.length (jtext fin v))) []) as (j & E & S); [lia|exact I|].
  exists j. split; [|split].
  - unfold json_output, response_calls. cbn [json_calls json_call bind].
    rewrite (writes_all fin finite v D []). cbn [jdec fst snd bind json_flush app]. rewrite !app_nil_r. reflexivity.
  - unfold js_read. rewrite app_nil_r in E. rewrite E. reflexivity.
  - eapply shows_ext; [|exact S]. eapply doubles_impl; [|exact D]. intros d H. cbn beta. apply finite_show. exact H.
Qed.
Print Assumptions C30_json_partial.

(** C30: a fault is an object with its number and message. *)
Theorem C30_fault : forall fin n msg, exists t num,
  json_output fin [PFault n msg] = Ok t
  /\ js_read t = Some (JObj [(str "failure", JNum num); (str "failureMessage", JStr msg)])
  /\ integer_text num /\ js_integer num = n.
Proof.
  intros fin n msg. destruct (integer_dec n) as [[I1 I3] I2].
  do 2 eexists. split; [cbn [json_output json_calls json_call bind json_flush flush_rounds jdec]; rewrite !app_nil_r; reflexivity|].
  split; [|split; [split; [exact I1|exact I3]|exact I2]].
  unfold js_read.
  set (q := json_quote msg ++ str " }").
  assert (LEN : exists k, Datatypes.S (List.length (str "{ ""failure"": " ++ dec_signed n ++ str ", ""failureMessage"": " ++ q))
    = Datatypes.S (Datatypes.S (Datatypes.S (Datatypes.S k)))) by (eexists; reflexivity).
  destruct LEN as [k LEN]. rewrite LEN. clear LEN.
  change (str "{ ""failure"": " ++ dec_signed n ++ str ", ""failureMessage"": " ++ q)
    with (x7b :: x20 :: x22 :: (str "failure"": " ++ dec_signed n ++ str ", ""failureMessage"": " ++ q)).
  assert (NUM : js_value (Datatypes.S (Datatypes.S (Datatypes.S k))) (x20 :: dec_signed n ++ str ", ""failureMessage"": " ++ q)
                = Some (JNum (dec_signed n), str ", ""failureMessage"": " ++ q)).
  { etransitivity; [|apply (value_number (Datatypes.S (Datatypes.S k)) (dec_signed n) (str ", ""failureMessage"": " ++ q)); [exact I1|reflexivity]].
    reflexivity. }
  assert (STR : js_value (Datatypes.S (Datatypes.S k)) (x20 :: q) = Some (JStr msg, str " }")).
  { cbn [js_value]. change (skip_ws (x20 :: q)) with (x22 :: (flat_map quote_char msg ++ [x22]) ++ str " }").
    change (b2z x22 =? 34) with true. cbv iota. rewrite <- app_assoc. rewrite js_string_quote. reflexivity. }
  remember (Datatypes.S (Datatypes.S (Datatypes.S k))) as k3 eqn:K3.
  assert (MEM : js_members (Datatypes.S k3) (x20 :: x22 :: str "failure"": " ++ dec_signed n ++ str ", ""failureMessage"": " ++ q)
    = Some ([(str "failure", JNum (dec_signed n)); (str "failureMessage", JStr msg)], [])).
  { cbn [js_members]. change (skip_ws (x20 :: x22 :: ?t)) with (x22 :: t). change (b2z x22 =? 34) with true. cbv iota.
    change (str "failure"": " ++ dec_signed n ++ str ", ""failureMessage"": " ++ q)
      with (str "failure" ++ [x22] ++ (x3a :: x20 :: dec_signed n ++ str ", ""failureMessage"": " ++ q)).
    rewrite js_string_plain by (repeat constructor; vm_compute; congruence).
    rewrite skip_ws_id by reflexivity. change (b2z x3a =? 58) with true. cbv iota. rewrite NUM.
    change (str ", ""failureMessage"": " ++ q) with (x2c :: x20 :: x22 :: (str "failureMessage" ++ [x22] ++ (x3a :: x20 :: q))).
    rewrite skip_ws_id by reflexivity. change (b2z x2c =? 125) with false. change (b2z x2c =? 44) with true. cbv iota.
    rewrite K3. cbn [js_members]. change (skip_ws (x20 :: x22 :: ?t)) with (x22 :: t). change (b2z x22 =? 34) with true. cbv iota.
    rewrite js_string_plain by (repeat constructor; vm_compute; congruence).
    rewrite skip_ws_id by reflexivity. change (b2z x3a =? 58) with true. cbv iota. rewrite STR. reflexivity. }
  cbn [js_value]. rewrite skip_ws_id by reflexivity. change (b2z x7b =? 34) with false. change (b2z x7b =? 91) with false. change (b2z x7b =? 123) with true. cbv iota.
  change (skip_ws (x20 :: x22 :: ?t)) with (x22 :: t). cbv iota. change (b2z x22 =? 125) with false. cbv iota. rewrite MEM. reflexivity.
Qed.
Print Assumptions C30_fault.

(** C30 is false of the code for infinities and NaNs: "inf" and "nan" are no JSON. *)
Theorem C30_infinity_refuted : forall fin, exists v t, json_output fin (response_calls v) = Ok t /\ js_read t = None.
Proof. intro fin. exists (VDouble (2047 * 2 ^ 52)), (str "inf"). split; vm_compute; reflexivity. Qed.
Print Assumptions C30_infinity_refuted.

Example C30_sample :
  let fin : Z -> bytes := fun _ => str "-1.5e+10" in
  let v := VStruct [(str "a", VArray [VInt (-7); VNull; VArray []; VBool true]); (str "b""", VString (str "x,]"));
                    (str "c", VBinary (str "foo")); (str "d", VSecret (VDouble 0)); (str "e", VStruct [])] in
  doubles finite v
  /\ json_output fin (response_calls v) = Ok (str "{""a"":[-7,null,[],true],""b\"""":""x,]"",""c"":""Zm9v"",""d"":-1.5e+10,""e"":{}}")
  /\ js_number (fin 0) = true
  /\ js_read (str " {""a"" : [-7,null, [ ],true]} ") = Some (JObj [(str "a", JArr [JNum (str "-7"); JNull; JArr []; JBool true])])
  /\ js_read (str "[1,]") = None /\ js_read (str "01") = None /\ js_read (str "[1}") = None.
Proof.
  cbn zeta. split.
  - repeat split; unfold finite; vm_compute; congruence.
  - repeat split; vm_compute; reflexivity.
Qed.
