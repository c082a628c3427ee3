(** C110, C111: [dumpTree] of the Python module. *)
From Coq Require Import Lia ZifyBool.
From Verif Require Import Base Value Text Unicode M_Marshal M_BinUnmarshal M_TreeBuilder M_Dump M_Python M_PyClient M_PyDate M_PyTree S_Python S_PyTree
  L_Base L_JsText L_PyText L_Python L_PyRead L_PyDumps L_PyTree.

(** * C110 *)

(** Objects that differ only in what is to be hidden, and in what is too deep, give the same dump, however doubles and other objects are printed. *)
Theorem C110_hidden : forall show repr type_name bytes_text names level pos v v', alike names level pos v v' ->
  dump_tree show repr type_name bytes_text names level pos v = dump_tree show repr type_name bytes_text names level pos v'.
Proof. intros. unfold dump_tree. rewrite (alike_dump show repr type_name bytes_text names v v' level pos false H). reflexivity. Qed.
Print Assumptions C110_hidden.

(** Refuted: [names] that are no dict (a list, a set of names) hide nothing. *)
Lemma no_names : forall names k, (forall m, names <> PyDict m) -> has_name (Some names) k = false.
Proof. intros names k N. unfold has_name. destruct names; try reflexivity. destruct (N m eq_refl). Qed.
Lemma dump_no_names : forall show repr type_name bytes_text names, (forall m, names <> PyDict m) ->
  forall v level pos p, dump show repr type_name bytes_text (Some names) level pos v p = dump show repr type_name bytes_text None level pos v p.
Proof.
  intros show repr type_name bytes_text names N.
  assert (IT: forall l, Forall (fun v => forall level pos p, dump show repr type_name bytes_text (Some names) level pos v p = dump show repr type_name bytes_text None level pos v p) l ->
    forall level pos i p, items show repr type_name bytes_text (Some names) level pos i l p = items show repr type_name bytes_text None level pos i l p).
  { intros l F level pos. induction F as [|x l E _ IH]; intros i p; [reflexivity|]. cbn [items]. rewrite E. destruct (_ && _)%bool; [rewrite IH; reflexivity|].
    destruct (dump _ _ _ _ None _ _ x p) as [[t [|]] q]; [rewrite IH|]; reflexivity. }
  assert (KEY: forall v, (forall level pos p, dump show repr type_name bytes_text (Some names) level pos v p = dump show repr type_name bytes_text None level pos v p)).
  { fix REC 1. intros v level pos p. destruct v as [|b|b|z|d|s|s|d|d|l|l|m|c mm|]; try reflexivity.
    - rewrite !dump_list. destruct (level =? 0); [reflexivity|]. rewrite IT; [reflexivity|]. induction l as [|x l IH]; constructor; [exact (REC x)|exact IH].
    - rewrite !dump_tuple, !dump_list. destruct (level =? 0); [reflexivity|]. rewrite IT; [reflexivity|]. induction l as [|x l IH]; constructor; [exact (REC x)|exact IH].
    - rewrite !dump_dict. destruct (level =? 0); [reflexivity|].
      assert (E: forall o q, members show repr type_name bytes_text (Some names) level o m q = members show repr type_name bytes_text None level o m q); [|rewrite E; reflexivity].
      induction m as [|[k x] m IH]; intros o q; [reflexivity|]. cbn [members]. rewrite (REC k). destruct (dump _ _ _ _ None _ _ k q) as [[tk [|]] q2]; [|reflexivity].
      rewrite (no_names names k N). unfold has_name. rewrite (REC x). destruct (dump _ _ _ _ None _ _ x false) as [[tv [|]] q3]; [rewrite IH|]; reflexivity. }
  exact KEY.
Qed.
Theorem C110_names_refuted : forall show repr type_name bytes_text names level pos v, (forall m, names <> PyDict m) ->
  dump_tree show repr type_name bytes_text (Some names) level pos v = dump_tree show repr type_name bytes_text None level pos v.
Proof. intros. unfold dump_tree. rewrite dump_no_names by assumption. reflexivity. Qed.
Print Assumptions C110_names_refuted.

(** Refuted: names with a NUL in them and names that are [bytes] are shown. *)
Theorem C110_kind_refuted : forall show repr type_name bytes_text, bytes_text (str "pin") = Some (map b2z (str "b'pin'")) ->
  dump_tree show repr type_name bytes_text (Some (PyDict [(PyStr [112; 0], PyNone); (PyBytes (str "pin"), PyNone)])) 2 0
    (PyDict [(PyStr [112; 0], PyInt 1234); (PyBytes (str "pin"), PyInt 4321)]) =
  PyOk (PyStr ([123; 34; 112; 0; 34; 58; 32] ++ map b2z (str "1234, b'pin': 4321}"))).
Proof.
  intros show repr type_name bytes_text B. unfold dump_tree. cbn [dump]. rewrite B. reflexivity.
Qed.
Print Assumptions C110_kind_refuted.

Definition no_text : py -> option pystr := fun _ => Some (map b2z (str "None")).
Definition as_bytes (s : bytes) : option pystr := Some (map b2z (str "b'...'")).
Example C110_sample : let names := Some (PyDict [(PyStr (map b2z (str "password")), PyInt 1)]) in
  let v p q := PyTuple [PyStr (map b2z (str "user.login")); p; PyDict [(PyStr (map b2z (str "name")), PyStr (map b2z (str "guest"))); (PyStr (map b2z (str "password")), q)]] in
  dump_tree (fun _ => str "0.5") no_text (fun _ => []) as_bytes names 3 2 (v (PyInt 1234) (PyStr (map b2z (str "secret")))) =
    PyOk (PyStr (map b2z (str "(""user.login..."", -hidden-, {""name"": ""guest"", ""password"": -hidden-})"))) /\
  alike names 3 2 (v (PyInt 1234) (PyStr (map b2z (str "secret")))) (v PyNone (PyList [])) /\ v (PyInt 1234) PyNone <> v PyNone (PyList []) /\
  alike None 1 0 (PyList [PyList [PyInt 1]]) (PyList [PyList []]).
Proof.
  cbv zeta. split; [vm_compute; reflexivity|]. split; [|split].
  - apply alike_tuple; [reflexivity|]. intros [|[|[|i]]] x y X Y; try (cbn in X; destruct i; discriminate X); injection X as <-; injection Y as <-.
    + right. apply alike_same.
    + left. split; [lia|reflexivity].
    + right. apply alike_dict; [reflexivity|]. intros [|[|i]] a b A B; try (cbn in A; destruct i; discriminate A); injection A as <-; injection B as <-; (split; [reflexivity|]).
      * right. apply alike_same.
      * left. exists (map b2z (str "password")). eexists. split; [reflexivity|]. split; [reflexivity|]. split; [left; reflexivity|]. split.
        -- repeat (apply Forall_cons; [left; cbn; lia|]). apply Forall_nil.
        -- cbn. lia.
  - intros E. discriminate E.
  - apply alike_list; [reflexivity|]. intros [|i] x y X Y; try (cbn in X; destruct i; discriminate X); injection X as <-; injection Y as <-.
    right. apply alike_deep_list.
Qed.

(** * C111 *)

(** Of an object whose strings are ASCII or short and whose numbers have 64 bits there is a dump. *)
Theorem C111_text_partial : forall show repr type_name bytes_text names level pos v,
  (forall d, is_text (show d)) -> (forall v, exists u, repr v = Some u /\ Forall uchar u) -> (forall s, exists u, bytes_text s = Some u /\ Forall (fun c => 0 <= c < 128) u) ->
  printable v -> exists u, dump_tree show repr type_name bytes_text names level pos v = PyOk (PyStr u).
Proof.
  intros show repr type_name bytes_text names level pos v S R B P. destruct (printable_fine show repr type_name bytes_text names S R B v level pos P) as (t & E & u & T).
  exists u. unfold dump_tree. rewrite E, (decode_same false t u T). reflexivity.
Qed.
Print Assumptions C111_text_partial.

(** It never crashes the interpreter. *)
Theorem C111_no_crash : forall show repr type_name bytes_text names level pos v,
  (exists u, dump_tree show repr type_name bytes_text names level pos v = PyOk (PyStr u)) \/
  dump_tree show repr type_name bytes_text names level pos v = PyRaise PE_Decode \/ dump_tree show repr type_name bytes_text names level pos v = PyRaise PE_System.
Proof.
  intros. unfold dump_tree. destruct (dump _ _ _ _ _ _ _ _ _) as [[t ok] p]. destruct (py_decode false t) as [u|]; [|auto]. destruct p; [auto|left; exists u; reflexivity].
Qed.
Print Assumptions C111_no_crash.

(** Refuted: a string is cut after ten bytes, if need be within a character. *)
Lemma decode_prefix : forall u s, Forall (fun c => 0 <= c < 128) u -> py_decode false s = None -> py_decode false (map z2b u ++ s) = None.
Proof.
  intros u s F N. induction F as [|c u C _ IH]; [exact N|]. cbn [map app py_decode]. rewrite b2z_z2b_small by lia. replace (c <? 128) with true by lia. cbv zeta.
  rewrite IH. reflexivity.
Qed.
Lemma ascii_map : forall u, Forall (fun c => 0 <= c < 128) u -> flat_map utf8_char u = map z2b u.
Proof.
  intros u F. induction F as [|c u C _ IH]; [reflexivity|]. cbn [flat_map map]. rewrite IH. unfold utf8_char. replace (c <? 128) with true by lia. reflexivity.
Qed.
Lemma lead_byte : forall c, uchar c -> 128 <= c -> exists x r, utf8_char c = z2b x :: r /\ 194 <= x <= 244 /\ r <> [].
Proof.
  intros c U L. unfold utf8_char. replace (c <? 128) with false by lia.
  destruct (Z.ltb_spec c 2048); [|destruct (Z.ltb_spec c 65536)]; eexists; eexists; (split; [reflexivity|]); (split; [|discriminate]);
    unfold uchar in U; Z.to_euclidean_division_equations; lia.
Qed.
Lemma zero_zlen : forall A (l : list A), 0 <= zlen l.
Proof. intros. unfold zlen. lia. Qed.
Lemma cut_ascii : forall a (s : bytes) x r, length a = 9%nat -> s = a ++ x :: r -> ztake 10 s = a ++ [x].
Proof.
  intros a s x r L ->. unfold ztake. replace (Z.to_nat 10) with (length (a ++ [x])) by (rewrite app_length, L; reflexivity).
  replace (a ++ x :: r) with ((a ++ [x]) ++ r) by (rewrite <- app_assoc; reflexivity). rewrite firstn_app, firstn_all, Nat.sub_diag, firstn_O, app_nil_r. reflexivity.
Qed.

Theorem C111_cut_refuted : forall show repr type_name bytes_text names level pos u c r, length u = 9%nat -> Forall (fun x => 0 <= x < 128) u -> uchar c -> 128 <= c -> Forall uchar r ->
  dump_tree show repr type_name bytes_text names level pos (PyStr (u ++ c :: r)) = PyRaise PE_Decode.
Proof.
  intros show repr type_name bytes_text names level pos u c r L A U C R. destruct (lead_byte c U C) as (x & w & E & X & W).
  assert (F: Forall uchar (u ++ c :: r)).
  { apply Forall_app. split; [|constructor; assumption]. eapply Forall_impl; [|exact A]. intros y Y. cbn in Y. unfold uchar. lia. }
  assert (T: flat_map utf8_char (u ++ c :: r) = map z2b u ++ z2b x :: (w ++ flat_map utf8_char r)).
  { rewrite flat_map_app, (ascii_map u A). cbn [flat_map]. rewrite E. reflexivity. }
  unfold dump_tree. cbn [dump]. unfold print_string. rewrite (encode_xml _ F). rewrite T.
  assert (B: (10 <? 0) || (blen (map z2b u ++ z2b x :: w ++ flat_map utf8_char r) <? 10) = false).
  { unfold blen. rewrite app_length, map_length, L. cbn [length]. rewrite app_length. destruct w; [contradiction|]. cbn [length]. lia. }
  rewrite B. rewrite (cut_ascii (map z2b u) _ (z2b x) (w ++ flat_map utf8_char r)); [|rewrite map_length; exact L|reflexivity].
  cbn [fst snd]. change ([x22] ++ ((map z2b u ++ [z2b x]) ++ str "...") ++ [x22]) with (map z2b [34] ++ ((map z2b u ++ [z2b x]) ++ str "...") ++ [x22]).
  rewrite <- !app_assoc, (app_assoc (map z2b [34])), <- map_app.
  rewrite decode_prefix; [reflexivity|constructor; [lia|exact A]|].
  cbn [app str]. change (str "...") with [x2e; x2e; x2e]. cbn [app py_decode]. rewrite b2z_z2b_small by lia. cbv zeta. replace (x <? 128) with false by lia.
  unfold cont. change (b2z x2e) with 46. destruct ((194 <=? x) && (x <=? 223))%bool; [reflexivity|].
  destruct ((224 <=? x) && (x <=? 239))%bool; [destruct (x =? 224); reflexivity|]. destruct ((240 <=? x) && (x <=? 244))%bool; [destruct (x =? 240); reflexivity|reflexivity].
Qed.
Print Assumptions C111_cut_refuted.

(** Refuted: a number of more than 64 bits and a string with a surrogate give SystemError, for the failure is not told. *)
Theorem C111_wide_refuted : forall show repr type_name bytes_text names level pos z, ~ - 2 ^ 63 <= z < 2 ^ 63 ->
  dump_tree show repr type_name bytes_text names level pos (PyInt z) = PyRaise PE_System.
Proof.
  intros. unfold dump_tree. cbn [dump]. replace ((- 2 ^ 63 <=? z) && (z <? 2 ^ 63))%bool with false by lia. reflexivity.
Qed.
Print Assumptions C111_wide_refuted.
Theorem C111_surrogate_refuted : forall show repr type_name bytes_text names level pos u, py_encode u = None ->
  dump_tree show repr type_name bytes_text names level pos (PyStr u) = PyRaise PE_System.
Proof. intros. unfold dump_tree. cbn [dump]. unfold print_string. rewrite H. reflexivity. Qed.
Print Assumptions C111_surrogate_refuted.

Example C111_sample : let v := PyDict [(PyStr (map b2z (str "a rather long name")), PyList [PyInt (-7); PyFloat 0; PyNone; PyDate (mkDT 2024 7 3 11 46 40 3 1720000000 (-7200))]);
                                       (PyStr [233], PyTuple [PyBytes []; PyBoolean true; PyDict []])] in
  printable v /\
  dump_tree (fun _ => str "0") no_text (fun _ => []) as_bytes None 2 0 v =
    PyOk (PyStr (map b2z (str "{""a rather l..."": (-7, 0, None, 20240703T11:46:40+0200), """) ++ [233] ++ map b2z (str """: (b'...', true, {...})}"))) /\
  dump_tree (fun _ => str "0") no_text (fun _ => []) as_bytes None 1 0 (PyStr (map b2z (str "123456789") ++ [233])) = PyRaise PE_Decode /\
  (exists u, py_encode u = None) /\ (forall d : Z, is_text ((fun _ => str "0") d)) /\ (forall v, exists u, no_text v = Some u /\ Forall uchar u) /\
  (forall s, exists u, as_bytes s = Some u /\ Forall (fun c => 0 <= c < 128) u).
Proof.
  cbv zeta. split; [|split; [vm_compute; reflexivity|split; [vm_compute; reflexivity|split; [exists [55296]; reflexivity|split; [|split]]]]].
  - apply printable_dict. constructor; [split|constructor; [split|constructor]].
    + eexists. split; [reflexivity|]. split; [repeat (apply Forall_cons; [left; cbn; lia|]); apply Forall_nil|]. right. repeat (apply Forall_cons; [cbn; lia|]). apply Forall_nil.
    + apply printable_list. repeat apply Forall_cons; try apply Forall_nil; [apply printable_int; lia|apply printable_float|apply printable_none|apply printable_date].
    + eexists. split; [reflexivity|]. split; [apply Forall_cons; [left; lia|apply Forall_nil]|]. left. reflexivity.
    + apply printable_tuple. repeat apply Forall_cons; try apply Forall_nil; [apply printable_bytes|apply printable_boolean|apply printable_dict, Forall_nil].
  - intros d. exists [48]. split; [repeat (apply Forall_cons; [left; cbn; lia|]); apply Forall_nil|reflexivity].
  - intros v. eexists. split; [reflexivity|]. repeat (apply Forall_cons; [left; cbn; lia|]). apply Forall_nil.
  - intros s. eexists. split; [reflexivity|]. repeat (apply Forall_cons; [cbn; lia|]). apply Forall_nil.
Qed.

