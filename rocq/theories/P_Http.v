(** Properties of HTTP headers and URLs: C38, C39. *)
From Coq Require Import Lia.
From Verif Require Import Base Text M_Base64 M_Iso M_Url M_Http S_Http L_Base L_Text L_HttpIO L_HttpIO2 L_Http L_UrlText.

(** ** C38 *)
(** A header as the operations of the class leave it. *)
Inductive reach_header : header -> Prop :=
| reach_empty : reach_header []
| reach_add : forall n v h, reach_header h -> reach_header (header_add n v h)
| reach_set : forall n v c i h, reach_header h -> reach_header (header_set n v c i h)
| reach_remove : forall n i h h', reach_header h -> header_remove n i h = Some h' -> reach_header h'
| reach_append : forall v h h', reach_header h -> header_append v h = Ok h' -> reach_header h'.

Lemma reach_polished : forall h, reach_header h -> polished h.
Proof.
  induction 1.
  - constructor.
  - apply polished_add; assumption.
  - apply polished_set; assumption.
  - eapply polished_remove; eauto.
  - unfold header_append in H0. destruct h as [|f h]; [discriminate|]. assert (E : h' = append_last v (f :: h)) by congruence. rewrite E. apply polished_append_last. assumption.
Qed.

(** Two names which differ in letter case only are the same name for every operation. *)
Theorem C38_case : forall n m, same_name n m ->
  (forall i h, header_get n i h = header_get m i h) /\ (forall h, header_list n h = header_list m h) /\
  (forall v c i h, header_set n v c i h = header_set m v c i h) /\ (forall v h, header_add n v h = header_add m v h) /\
  (forall i h, header_remove n i h = header_remove m i h).
Proof.
  intros n m H. apply polish_same in H. unfold header_get, header_list, header_set, header_add, header_remove. rewrite H. auto.
Qed.
Print Assumptions C38_case.

(** Looking up: the values of the fields of that name, in order. *)
Theorem C38_get : forall h name vs, reach_header h -> field_values name h vs ->
  header_list name h = vs /\ forall i, 0 <= i -> header_get name i h = nth_error vs (Z.to_nat i).
Proof.
  intros h name vs HR HV. apply reach_polished in HR. rewrite (values_list name h vs HR HV). split; [reflexivity|].
  intros. apply get_list. assumption.
Qed.
Print Assumptions C38_get.

Lemma eqb_name : forall n m, bytes_eqb (polish_name n) (polish_name m) = true <-> same_name n m.
Proof. intros. rewrite bytes_eqb_spec. apply polish_same. Qed.
Lemma values_iff : forall h n vs, polished h -> field_values n h vs <-> vs = header_list n h.
Proof. intros h n vs HP. split; [apply values_list; assumption|intros ->; apply list_values; assumption]. Qed.

(** Adding appends one value to that name and touches no other. *)
Theorem C38_add : forall h m v, reach_header h ->
  (forall n vs, field_values n h vs -> same_name n m -> field_values n (header_add m v h) (vs ++ [v])) /\
  (forall n vs, field_values n h vs -> ~ same_name n m -> field_values n (header_add m v h) vs).
Proof.
  intros h m v HR. apply reach_polished in HR. pose proof (polished_add m v h HR) as HP.
  split; intros n vs HV HS; apply values_iff in HV; auto; subst vs; apply values_iff; auto; rewrite list_add.
  - apply eqb_name in HS. rewrite HS. reflexivity.
  - destruct (bytes_eqb (polish_name n) (polish_name m)) eqn:E; [apply eqb_name in E; contradiction|]. rewrite app_nil_r. reflexivity.
Qed.
Print Assumptions C38_add.

Lemma put_at : forall A (a b : list A) x v, put_nth (List.length a) v (a ++ x :: b) = Some (a ++ v :: b).
Proof. induction a as [|y a IH]; intros; [reflexivity|]. cbn. rewrite IH. reflexivity. Qed.
Lemma put_out : forall A (l : list A) i v, (List.length l <= i)%nat -> put_nth i v l = None.
Proof. induction l as [|y l IH]; intros [|i] v H; cbn in *; try lia; auto. rewrite IH by lia. reflexivity. Qed.
Lemma del_at : forall A (a b : list A) x, del_nth (List.length a) (a ++ x :: b) = Some (a ++ b).
Proof. induction a as [|y a IH]; intros; [reflexivity|]. cbn. rewrite IH. reflexivity. Qed.
Lemma del_out : forall A (l : list A) i, (List.length l <= i)%nat -> del_nth i l = None.
Proof. induction l as [|y l IH]; intros [|i] H; cbn in *; try lia; auto. rewrite IH by lia. reflexivity. Qed.

(** Setting the [i]-th value replaces it, or appends it when there is none and creation is asked for. *)
Theorem C38_set : forall h m v create i, reach_header h -> 0 <= i ->
  (forall n a x b, field_values n h (a ++ x :: b) -> same_name n m -> zlen a = i ->
     field_values n (header_set m v create i h) (a ++ v :: b)) /\
  (forall n vs, field_values n h vs -> same_name n m -> zlen vs <= i ->
     field_values n (header_set m v create i h) (vs ++ if create then [v] else [])) /\
  (forall n vs, field_values n h vs -> ~ same_name n m -> field_values n (header_set m v create i h) vs).
Proof.
  intros h m v create i HR HI. apply reach_polished in HR. pose proof (polished_set m v create i h HR) as HP.
  split; [|split].
  - intros n a x b HV HS HL. apply values_iff in HV; auto. apply values_iff; auto. rewrite list_set_same, <- HV by auto.
    unfold zlen in HL. subst i. rewrite Nat2Z.id, put_at. reflexivity.
  - intros n vs HV HS HL. apply values_iff in HV; auto. apply values_iff; auto. rewrite list_set_same, <- HV by auto.
    rewrite put_out by (unfold zlen in HL; lia). reflexivity.
  - intros n vs HV HS. apply values_iff in HV; auto. apply values_iff; auto. rewrite list_set_other by auto. assumption.
Qed.
Print Assumptions C38_set.

(** Removing the [i]-th value. *)
Theorem C38_remove : forall h m i, reach_header h -> 0 <= i ->
  (forall n a x b, field_values n h (a ++ x :: b) -> same_name n m -> zlen a = i ->
     exists h', header_remove m i h = Some h' /\ field_values n h' (a ++ b)) /\
  (forall vs, field_values m h vs -> zlen vs <= i -> header_remove m i h = None) /\
  (forall n vs h', field_values n h vs -> ~ same_name n m -> header_remove m i h = Some h' -> field_values n h' vs).
Proof.
  intros h m i HR HI. apply reach_polished in HR. split; [|split].
  - intros n a x b HV HS HL. apply values_iff in HV; auto. pose proof (list_remove_same n m i h HI HR HS) as H. rewrite <- HV in H.
    unfold zlen in HL. subst i. rewrite Nat2Z.id, del_at in H. destruct (header_remove m (Z.of_nat (Datatypes.length a)) h) as [h'|] eqn:E; [|discriminate].
    exists h'. split; [reflexivity|]. apply values_iff; [eapply polished_remove; eauto|]. cbn [option_map] in H. congruence.
  - intros vs HV HL. apply values_iff in HV; auto. pose proof (list_remove_same m m i h HI HR eq_refl) as H. rewrite <- HV in H.
    rewrite del_out in H by (unfold zlen in HL; lia). destruct (header_remove m i h); [discriminate|reflexivity].
  - intros n vs h' HV HS HH. apply values_iff in HV; auto. apply values_iff; [eapply polished_remove; eauto|].
    rewrite (list_remove_other n m i h h' HR HS HH). assumption.
Qed.
Print Assumptions C38_remove.

Example C38_sample :
  let h := header_add (str "SET-cookie") (str "b") (header_add (str "x") (str "y") (header_add (str "set-Cookie") (str "a") [])) in
  reach_header h /\ header_list (str "Set-Cookie") h = [str "a"; str "b"] /\ header_get (str "sEt-cOOkie") 1 h = Some (str "b")
  /\ header_text (header_set (str "X") (str "z") true 0 h)
     = str "Set-Cookie: a" ++ crlf ++ str "X: z" ++ crlf ++ str "Set-Cookie: b" ++ crlf.
Proof. split; [repeat apply reach_add; apply reach_empty|]. repeat split; vm_compute; reflexivity. Qed.

(** ** C39 *)
(** A well-formed URL is parsed into its parts; the scheme may be written in any case.  With a path containing ']' this
    needs a bracketed host or no explicit port. *)
Theorem C39_parse_partial : forall scheme host pt port pa path,
  ((plain_host host /\ (pt = [] \/ ~ In x5d pa)) \/ bracket_host host) -> path_text pa path ->
  (same_name scheme (str "http://") -> port_text 80 pt port ->
     url_parse (scheme ++ host ++ pt ++ pa) = Ok (mkUrl host port path false false)) /\
  (same_name scheme (str "https://") -> port_text 443 pt port ->
     url_parse (scheme ++ host ++ pt ++ pa) = Ok (mkUrl host port path false true)).
Proof.
  intros scheme host pt port pa path HH HPA. split; intros HS HPT.
  - rewrite (parse_good _ Sch_http host pt port pa path); auto; [|discriminate]. apply scheme_http. exact HS.
  - rewrite (parse_good _ Sch_https host pt port pa path); auto; [|discriminate]. apply scheme_https. exact HS.
Qed.
Print Assumptions C39_parse_partial.

Example C39_sample :
  url_parse (str "HTTP://example.com:8080/RPC2?a=[1") = Ok (mkUrl (str "example.com") 8080 (str "/RPC2?a=[1") false false) /\
  url_parse (str "https://[::1]/a:b]") = Ok (mkUrl (str "[::1]") 443 (str "/a:b]") false true) /\
  url_parse (str "http://h") = Ok (mkUrl (str "h") 80 (str "/") false false).
Proof. repeat split; vm_compute; reflexivity. Qed.

(** The premise on ']' is needed: the port of this well-formed URL becomes part of the host. *)
Theorem C39_parse_refuted : exists host pt port pa path, plain_host host /\ port_text 80 pt port /\ path_text pa path /\
  url_parse (str "http://" ++ host ++ pt ++ pa) = Ok (mkUrl (host ++ pt) 80 path false false) /\ port <> 80.
Proof.
  exists (str "h"), (str ":8080"), 8080, (str "/x]"), (str "/x]"). split.
  { intros c [<-|[]]. repeat split; discriminate. }
  split; [apply (port_number 80 (str "8080") 8080); [|lia]; apply (dec_more (str "808") 808 x30 0 );
     [apply (dec_more (str "80") 80 x38 8); [apply (dec_more (str "8") 8 x30 0); [apply dec_one; [reflexivity|lia]|reflexivity|lia]|reflexivity|lia]|reflexivity|lia]|].
  split; [apply path_given|]. split; [vm_compute; reflexivity|lia].
Qed.
Print Assumptions C39_parse_refuted.

(** [getUrl] gives a URL which is parsed into the same parts; for UNIX sockets unless the path contains ']'. *)
Theorem C39_print_partial : forall s u, url_parse s = Ok u -> (u_port u = 0 -> u_host u = [] -> ~ In x5d (u_path u)) ->
  url_parse (url_text u) = Ok u.
Proof.
  intros s u H HX. assert (HS : exists sch r, url_scheme s = Some (sch, r)).
  { unfold url_parse in H. destruct (url_scheme s) as [[sch r]|]; [eauto|discriminate]. }
  destruct HS as (sch & r & HS).
  assert (HR : exists a b, r = a ++ b /\ find_char 47 a = None /\ (b = [] \/ exists p, b = x2f :: p)).
  { destruct (find_char 47 r) as [i|] eqn:E.
    - apply find_char_some in E as (a & x & b & -> & EX & _ & EN). exists a, (x :: b). repeat split; auto. right. exists b. f_equal.
      unfold is_char in EX. apply Z.eqb_eq in EX. apply b2z_inj. rewrite EX. reflexivity.
    - exists r, []. rewrite app_nil_r. auto. }
  destruct HR as (a & b & -> & HA & HB). rewrite (parse_eq s sch a b HS HA HB) in H. cbv zeta in H.
  set (path := match b with [] => str "/" | _ => b end) in *.
  assert (HP : exists p, path = x2f :: p) by (unfold path; destruct HB as [->|(p & ->)]; [exists []; reflexivity|eauto]).
  assert (HCB : colon_at (bracket_pos (a ++ b)) (a ++ b) (blen a) = colon_at (bracket_pos (a ++ path)) (a ++ path) (blen a)).
  { unfold path. destruct HB as [->|(p & ->)]; [|reflexivity]. rewrite app_nil_r.
    assert (EB : bracket_pos (a ++ str "/") = bracket_pos a).
    { unfold bracket_pos. destruct (find_char 93 a) eqn:E; [rewrite (find_char_app_some _ _ _ _ E); reflexivity|].
      rewrite find_char_app_none by assumption. reflexivity. }
    rewrite EB. unfold colon_at, find_char_from.
    assert (HPOS : 0 <= bracket_pos a <= blen a).
    { unfold bracket_pos. destruct (find_char 93 a) eqn:E; [apply find_char_range in E; lia|]. pose proof (blen_nonneg a). lia. }
    destruct (zdrop_split _ a HPOS) as (u0 & v & E & EU & EZ). rewrite EZ. pose proof (EZ []) as EZ0. rewrite !app_nil_r in EZ0. rewrite EZ0.
    destruct (find_char 58 v) as [j|] eqn:EJ; [rewrite (find_char_app_some _ _ _ _ EJ); reflexivity|].
    rewrite find_char_app_none by assumption. reflexivity. }
  rewrite HCB in H.
  assert (HUNIX : forall port, with_scheme Sch_unix [] port path = Ok u -> ~ In x5d path -> url_parse (url_text u) = Ok u).
  { intros port HW HN. inversion HW; subst u. unfold url_text. cbn [u_proxy u_ssl u_host u_port u_path Z.eqb].
    rewrite (parse_good _ Sch_http [] (x3a :: dec 0) 0 path path); [reflexivity|apply (scheme_http (str "http://")); reflexivity|discriminate| | |].
    - apply port_number; [apply dec_is_number; lia|lia].
    - destruct HP as (p & ->). apply path_given.
    - left. split; [intros c []|auto]. }
  destruct (colon_at (bracket_pos (a ++ path)) (a ++ path) (blen a)) as [c|] eqn:EC.
  - destruct (parse_again a path c HA HP EC) as (HC & HPA).
    pose proof (read_u16_range (zdrop (c + 1) a)) as HR16.
    destruct sch; cbn [with_scheme] in H.
    + inversion H; subst u. unfold url_text. cbn [u_proxy u_ssl u_host u_port u_path].
      specialize (HPA Sch_http _ HR16 ltac:(discriminate)). apply HPA. apply (scheme_http (str "http://")). reflexivity.
    + inversion H; subst u. unfold url_text. cbn [u_proxy u_ssl u_host u_port u_path].
      specialize (HPA Sch_https _ HR16 ltac:(discriminate)). apply HPA. apply (scheme_https (str "https://")). reflexivity.
    + destruct (ztake c a) as [|x y]; [|discriminate]. apply (HUNIX 0 H). inversion H; subst u. apply HX; reflexivity.
  - assert (HAG : forall sch', sch' <> Sch_unix -> forall s', url_scheme s' = Some (sch', a ++ path) ->
                  url_parse s' = with_scheme sch' a (def_port sch') path).
    { intros sch' HU s' HS'. destruct HP as (p & EP).
      rewrite (parse_eq s' sch' a path HS' HA ltac:(right; exists p; assumption)). cbv zeta. rewrite EC. rewrite EP. reflexivity. }
    destruct sch; cbn [with_scheme def_port] in H.
    + inversion H; subst u. unfold url_text. cbn [u_proxy u_ssl u_host u_port u_path Z.eqb Pos.eqb].
      specialize (HAG Sch_http ltac:(discriminate)). apply HAG. apply (scheme_http (str "http://")). reflexivity.
    + inversion H; subst u. unfold url_text. cbn [u_proxy u_ssl u_host u_port u_path Z.eqb Pos.eqb].
      specialize (HAG Sch_https ltac:(discriminate)). apply HAG. apply (scheme_https (str "https://")). reflexivity.
    + destruct a as [|x y]; [|discriminate]. apply (HUNIX 0 H). inversion H; subst u. apply HX; reflexivity.
Qed.
Print Assumptions C39_print_partial.

Example C39_print_sample : exists u, url_parse (str "HTTPS://host:80") = Ok u /\ url_text u = str "https://host:80/" /\ url_is_unix u = false.
Proof. exists (mkUrl (str "host") 80 (str "/") false true). repeat split; vm_compute; reflexivity. Qed.

(** The exception is real: the URL printed for this socket names a TCP host. *)
Theorem C39_print_refuted : exists s u, url_parse s = Ok u /\ url_is_unix u = true /\
  exists w, url_parse (url_text u) = Ok w /\ url_is_unix w = false.
Proof.
  exists (str "unix:///a]"), (mkUrl [] 0 (str "/a]") false false). split; [vm_compute; reflexivity|]. split; [reflexivity|].
  exists (mkUrl (str ":0") 80 (str "/a]") false false). split; [vm_compute; reflexivity|reflexivity].
Qed.
Print Assumptions C39_print_refuted.

(** Parsing never goes wrong in any other way than the documented exception; ports are 16-bit numbers. *)
Theorem C39_total : forall s, match url_parse s with Ok u => 0 <= u_port u <= 65535 /\ exists p, u_path u = x2f :: p | Err e => e = TypeError | UB => False end.
Proof.
  intro s. destruct (url_scheme s) as [[sch r]|] eqn:HS; [|unfold url_parse; rewrite HS; reflexivity].
  assert (HR : exists a b, r = a ++ b /\ find_char 47 a = None /\ (b = [] \/ exists p, b = x2f :: p)).
  { destruct (find_char 47 r) as [i|] eqn:E.
    - apply find_char_some in E as (a & x & b & -> & EX & _ & EN). exists a, (x :: b). repeat split; auto. right. exists b. f_equal.
      unfold is_char in EX. apply Z.eqb_eq in EX. apply b2z_inj. rewrite EX. reflexivity.
    - exists r, []. rewrite app_nil_r. auto. }
  destruct HR as (a & b & -> & HA & HB). rewrite (parse_eq s sch a b HS HA HB). cbv zeta.
  assert (HP : exists p, match b with [] => str "/" | _ => b end = x2f :: p) by (destruct HB as [->|(p & ->)]; [exists []; reflexivity|eauto]).
  destruct (colon_at (bracket_pos (a ++ b)) (a ++ b) (blen a)) as [c|].
  - pose proof (read_u16_range (zdrop (c + 1) a)). destruct sch; cbn [with_scheme]; [cbn; auto|cbn; auto|].
    destruct (ztake c a); cbn; auto. split; [lia|auto].
  - destruct sch; cbn [with_scheme def_port]; [cbn; split; [lia|auto]|cbn; split; [lia|auto]|]. destruct a; cbn; auto. split; [lia|auto].
Qed.
Print Assumptions C39_total.
