(** The Python server and any input. *)
From Coq Require Import Lia.
From Verif Require Import L_BinUnmarshal L_Origin Base Value Text Unicode M_Marshal M_BinUnmarshal M_TreeBuilder M_Base64 M_Iso M_Json M_Url M_Http M_HttpIO M_HttpWriter M_Registry M_Server M_Xml M_XmlUm
  M_Python M_PyRegistry M_PyServer S_Events S_Url S_Http S_Server S_Python S_PyRegistry S_PyServer L_Base L_HttpIO L_HttpIO2 L_HttpIO3 L_HttpIO4 L_HttpIO5 L_UrlSafe L_ServerUrl L_Server5 L_Python
  L_PySafe L_PyCall L_PyRegistry L_PyStrs L_ReadAny P_B64Body.

(** ** What the marshallers cannot write *)
Definition quiet (c : mcall) : Prop :=
  match c with
  | PInt z => z <> - 2 ^ 63
  | PDateTime d => dt_unix d <> - 2 ^ 63
  | PMember k => 1 <= blen k <= 255
  | PMethodCall _ => False
  | PFault code _ => in_s32 code
  | _ => True
  end.
Definition streamy (f : option fail) : Prop := match f with None => True | Some (Exn (StreamError _)) => True | _ => False end.
Lemma names_fit : forall k, 1 <= blen k <= 255 -> (255 <? blen k) || (blen k =? 0) = false.
Proof. intros k H. apply orb_false_iff. split; [apply Z.ltb_ge; lia|apply Z.eqb_neq; lia]. Qed.
Lemma pack_streamy : forall ver c, quiet c -> streamy (snd (bin_pack ver c)).
Proof.
  intros ver c Q. destruct c; cbn [bin_pack snd streamy]; try exact I; cbn [quiet] in Q; try contradiction.
  - destruct (_ || _); exact I.
  - unfold pack_datetime. destruct (2 <? v_major ver); [exact I|]. destruct (Z.eqb_spec (dt_unix d) (- 2 ^ 63)); [contradiction|exact I].
  - rewrite names_fit by exact Q. exact I.
Qed.
Lemma xvalue_streamy : forall o s, streamy (snd (xvalue o s)).
Proof. intros. rewrite xvalue_safe. exact I. Qed.
Lemma xint_streamy : forall ver z s, z <> - 2 ^ 63 -> streamy (snd (x_int ver z s)).
Proof.
  intros ver z s HZ. unfold x_int. destruct (Z.eqb_spec z (- 2 ^ 63)); [contradiction|]. destruct (_ =? 0); [apply xvalue_streamy|]. destruct (v_major ver <? 2); [exact I|apply xvalue_streamy].
Qed.
Lemma xseq_streamy : forall a k, streamy (snd a) -> (forall s, streamy (snd (k s))) -> streamy (snd (xseq a k)).
Proof. intros [[o s] f] k HA HK. unfold xseq. destruct f; [exact HA|]. specialize (HK s). destruct (k s) as [[o' s'] e]. exact HK. Qed.
Lemma xcontainer_streamy : forall k b n s, streamy (snd (x_container k b n s)).
Proof. intros. unfold x_container. destruct (n =? 0); [apply xvalue_streamy|exact I]. Qed.
Lemma xmember_streamy : forall k s, 1 <= blen k <= 255 -> streamy (snd (x_member k s)).
Proof. intros k s H. unfold x_member. rewrite names_fit by exact H. exact I. Qed.
Lemma writers_streamy : forall fin o ver s c, quiet c -> streamy (snd (ma_call (writers fin o ver) s c)).
Proof.
  intros fin o ver s c Q. destruct o; cbn [writers] in *.
  - change (streamy (snd (xml_call fin ver s c))).
    destruct c; cbn [xml_call quiet] in *; try apply xvalue_streamy; try apply xcontainer_streamy; try (apply xint_streamy; exact Q); try (apply xmember_streamy; exact Q); try exact I; try contradiction.
    unfold in_s32 in Q. repeat (apply xseq_streamy; [first [apply xcontainer_streamy|apply xmember_streamy; vm_compute; split; discriminate|apply xvalue_streamy|apply xint_streamy; lia|exact I]|intro]). exact I.
  - cbn [ma_call bin_ma]. pose proof (pack_streamy ver c Q) as X. destruct (bin_pack ver c). exact X.
  - cbn [ma_call json_ma]. assert (HJ : forall o, exists x, jvalue o s = Ok x) by (intro o; unfold jvalue; destruct (jdec s); eauto).
    destruct c; cbn [json_call quiet] in *; try (match goal with |- context [if ?b then _ else _] => destruct b end);
      try (match goal with |- context [jvalue ?o s] => let x := fresh in let s2 := fresh in destruct (HJ o) as ([x s2] & E); rewrite E end); try exact I; contradiction.
  - cbn [ma_call b64_ma]. pose proof (pack_streamy ver c Q) as X. destruct (bin_pack ver c) as [o f]. destruct (b64w_write s o). exact X.
Qed.
Lemma run_streamy : forall fin o ver cs s, Forall quiet cs -> streamy (snd (ma_run (writers fin o ver) s cs)).
Proof.
  intros fin o ver. induction cs as [|c cs IH]; intros s F; [exact I|]. inversion F; subst. cbn [ma_run]. pose proof (writers_streamy fin o ver s c H1) as X.
  destruct (ma_call (writers fin o ver) s c) as [[t s'] [f|]]; [exact X|]. specialize (IH s' H2). destruct (ma_run (writers fin o ver) s' cs) as [[t' s''] f]. exact IH.
Qed.
Lemma fault_written : forall fin o ver msg, exists t s, ma_run (writers fin o ver) (ma_init (writers fin o ver)) [PFault FRPC_PARSE_ERROR msg] = (t, s, None).
Proof.
  intros fin o ver msg. assert (E : exists t s, ma_call (writers fin o ver) (ma_init (writers fin o ver)) (PFault FRPC_PARSE_ERROR msg) = (t, s, None)).
  { destruct o; cbn [writers]; try (do 2 eexists; reflexivity).
    cbn [ma_call b64_ma bin_pack]. destruct (b64w_write _ _) as [t s]. do 2 eexists. reflexivity. }
  destruct E as (t & s & E). cbn [ma_run]. rewrite E. do 2 eexists. reflexivity.
Qed.

(** ** What the feeder gives them *)
Section Feed.
  Variable host : datetime -> datetime.
  Lemma writable_seq : forall l, fold_right (fun x p => writable host x /\ p) True l <-> Forall (writable host) l.
  Proof. induction l as [|x l IH]; cbn; [split; constructor|]. rewrite IH. split; [intros []; constructor; auto|intro H; inversion H; auto]. Qed.
  Lemma seq_quiet : forall l, Forall (fun p => writable host p -> Forall quiet (fst (feed_py host p))) l -> Forall (writable host) l -> Forall quiet (fst (feed_seq (feed_py host) l)).
  Proof.
    induction l as [|x l IH]; intros F W; [constructor|]. inversion F; inversion W; subst. cbn [feed_seq]. specialize (H1 H5). destruct (feed_py host x) as [c [e|]]; [exact H1|].
    specialize (IH H2 H6). destruct (feed_seq (feed_py host) l) as [c' e]. cbn [fst] in *. apply Forall_app. auto.
  Qed.
  Lemma feed_quiet : forall p, writable host p -> Forall quiet (fst (feed_py host p)).
  Proof.
    induction p as [|b|b|z|d|s|s|d|d|l IH|l IH|m IH|c m|] using py_nested_ind; intro W; cbn [feed_py writable] in *; try (repeat constructor; exact W).
    - unfold as_int. destruct (_ && _) eqn:E.
      + constructor; [|constructor]. cbn [quiet]. apply andb_true_iff in E as [E1 E2]. apply Z.eqb_eq in E1. apply Z.ltb_lt in E2. destruct W as [_ W]. intro X. apply W.
        unfold num_bits in E1. destruct (Z.eqb_spec z 0); [lia|]. rewrite Z.abs_eq in E1 by lia. pose proof (Z.log2_spec z E2) as L. replace (Z.log2 z) with 63 in L by lia.
        unfold s64, signed in X. cbv zeta in X. change (Z.succ 63) with 64 in L. rewrite Z.mod_small in X by lia. destruct (z <? 2 ^ (64 - 1)); lia.
      + clear E. destruct (_ && _); repeat constructor. exact (proj1 W).
    - destruct (py_encode s); repeat constructor.
    - apply writable_seq in W. pose proof (seq_quiet l IH W) as X. destruct (feed_seq (feed_py host) l) as [c e]. cbn [fst] in *. constructor; [exact I|exact X].
    - apply writable_seq in W. pose proof (seq_quiet l IH W) as X. destruct (feed_seq (feed_py host) l) as [c e]. cbn [fst] in *. constructor; [exact I|exact X].
    - assert (X : Forall quiet (fst (feed_items (feed_py host) m))).
      { induction m as [|[k v] m IM]; [constructor|]. inversion IH; subst. destruct W as (K & V & W). cbn [fst snd] in *. specialize (IM H2 W). cbn [feed_items].
        destruct k; try constructor. destruct (py_encode s) as [b|] eqn:E; [|constructor]. assert (B : quiet (PMember b)) by (exact (K s b eq_refl E)).
        specialize (H1 V). destruct (feed_py host v) as [c [e|]]; [constructor; [exact B|exact H1]|].
        destruct (feed_items (feed_py host) m) as [c' e]. cbn [fst] in *. constructor; [exact B|]. apply Forall_app. auto. }
      destruct (feed_items (feed_py host) m) as [c e]. cbn [fst] in *. constructor; [exact I|exact X].
  Qed.
  Lemma result_quiet : forall v, writable host v -> Forall quiet (fst (result_calls host v)).
  Proof.
    intros v W. assert (G : Forall quiet (fst (let '(c, e) := feed_py host v in (PMethodResponse :: c, e)))).
    { pose proof (feed_quiet v W) as X. destruct (feed_py host v) as [c e]. constructor; [exact I|exact X]. }
    destruct v as [| | | | | | | | | | | |c m|]; try exact G. cbn [result_calls]. destruct (as_long c) as [z|]; [|constructor].
    destruct m; try constructor. destruct (py_encode s); [|constructor]. constructor; [|constructor]. cbn [quiet]. unfold in_s32, s32, signed. cbv zeta. destruct (Z.ltb_spec (z mod 2 ^ 32) (2 ^ (32 - 1))); lia.
  Qed.
End Feed.

(** ** Reading a request *)
Lemma first_line_any : forall fuel s s' x, (List.length (pending s) < fuel)%nat -> first_line fuel s = (s', x) ->
  protocol x /\ (forall l, x = Ok l -> (List.length (pending s') < List.length (pending s))%nat) /\ ends (pending s') (pending s).
Proof.
  induction fuel as [|fuel IH]; intros s s' x F H; [lia|]. cbn [first_line] in H.
  destruct (read_line_any true (-1) false s) as (p & v & y & E & U & L & _ & N). pose proof (line_protocol _ _ _ _ _ _ E) as P. pose proof (line_opt_ends _ _ _ _ _ _ E) as EN. rewrite E in H. cbn [pending] in EN.
  destruct y as [l|e|]; [|inversion H; subst; split; [exact P|split; [discriminate|exact EN]]|congruence]. specialize (N l eq_refl eq_refl).
  destruct l as [|c l].
  - apply IH in H; [|cbn; lia]. destruct H as (A & B & C). cbn [pending] in *. split; [exact A|]. split; [intros l0 X; specialize (B l0 X); lia|eapply ends_trans; eassumption].
  - inversion H; subst. cbn [pending]. split; [exact I|]. split; [auto|exact EN].
Qed.

Section Reading.
  Context {W : Type}.
  Variable cfg : pconfig W.
  Variable ums : in_type -> pyum.

  Definition in_part (whole : bytes) (k : in_type) : Prop := exists pieces, part_of (concat pieces) whole /\ troubles (ums k) k pieces.
  (** The unmarshaller has been given a part of the data; the rest is still to be read. *)
  Definition given_part (k : in_type) (whole : bytes) (s : pu_state (ums k)) (p : bytes) : Prop :=
    exists pieces, hand_over (pu_take (ums k)) (pu_init (ums k)) pieces = (s, None) /\ part_of (concat pieces ++ p) whole.
  Lemma given_ends : forall k whole s p q, given_part k whole s p -> ends q p -> given_part k whole s q.
  Proof. intros k whole s p q (ps & E & P) H. exists ps. split; [exact E|]. eapply part_trans; [exact P|]. apply part_app, part_ends, H. Qed.
  Lemma given_take : forall k whole s d p s' f, given_part k whole s (d ++ p) -> pu_take (ums k) s d = (s', f) ->
    match f with None => given_part k whole s' p | Some f => unanswered f -> in_part whole k end.
  Proof.
    intros k whole s d p s' f (ps & E & P) H. assert (X : hand_over (pu_take (ums k)) (pu_init (ums k)) (ps ++ [d]) = (s', f)).
    { rewrite hand_over_app, E. cbn [hand_over]. rewrite H. destruct f; reflexivity. }
    assert (C : concat (ps ++ [d]) = concat ps ++ d) by (rewrite concat_app; cbn [concat]; rewrite app_nil_r; reflexivity).
    destruct f as [f|].
    - intro U. exists (ps ++ [d]). split; [|eapply trouble_pieces; eassumption]. rewrite C. eapply part_trans; [exact P|]. apply part_app, part_left.
    - exists (ps ++ [d]). split; [exact X|]. rewrite C, <- app_assoc. exact P.
  Qed.

  (** The builder has built what was in a part of the data. *)
  Definition built_from (whole : bytes) (b : pb) : Prop := exists k pieces s s', part_of (concat pieces) whole /\ hand_over (pu_take (ums k)) (pu_init (ums k)) pieces = (s, None) /\
    pu_finish (ums k) s = (s', Ok tt) /\ b = pu_builder (ums k) s'.
  (** What [readRequest] may do. *)
  Definition read_ok (whole : bytes) (n : nat) (st : psrv) (s : sock) (x : res pb) : Prop :=
    ends (pending s) whole /\
    match x with
    | Ok b => v_major (ps_ver st) <= 3 /\ (List.length (pending s) < n)%nat /\ (ps_is_head st = false -> (pb_method b <> None \/ pb_object b = Some PyNone) /\ built_from whole b)
    | Err e => v_major (ps_ver st) <= 3 /\ ~ unanswered (Exn e) /\ (forall m, e = StreamError m -> (List.length (pending s) < n)%nat)
    | UB => False
    end.
  Lemma request_any : forall st s st' s' x, v_major (ps_ver st) <= 3 -> py_read_request cfg ums st s = (st', s', x) ->
    read_ok (pending s) (List.length (pending s)) st' s' x \/ exists k, in_part (pending s) k.
  Proof.
    intros st s st' s' x HV H. unfold py_read_request in H.
    destruct (first_line (S (List.length (pending s))) s) as [s1 y1] eqn:E1. apply first_line_any in E1 as (P1 & L1 & N1); [|lia].
    destruct y1 as [line|e|]; [|inversion H; subst; left; split; [exact N1|]; cbn [ps_ver]; destruct P1 as [c ->]; cbn; repeat split; auto; discriminate|contradiction].
    specialize (L1 _ eq_refl).
    assert (BAD : forall st1 (s1 : sock) e, ends (pending s1) (pending s) -> (List.length (pending s1) < List.length (pending s))%nat -> v_major (ps_ver st1) <= 3 -> ~ unanswered (Exn e) ->
      (st1, s1, Err e) = (st', s', x) -> read_ok (pending s) (List.length (pending s)) st' s' x \/ exists k, in_part (pending s) k).
    { intros st1 s0 e A B C D EQ. inversion EQ; subst. left. split; [exact A|]. cbn. auto. }
    assert (LE : forall p : bytes, ends p (pending s1) -> ends p (pending s) /\ (List.length p < List.length (pending s))%nat).
    { intros p N. split; [eapply ends_trans; eassumption|]. destruct N as [a N]. rewrite N, app_length in L1. lia. }
    destruct (split_by_space line 3) as [|method [|path [|protocol [|? ?]]]]; try (eapply BAD; [| | | |exact H]; auto; fail).
    destruct (negb _) in H; [eapply BAD; [| | | |exact H]; auto|].
    destruct (read_header false [] s1) as [s2 y2] eqn:E2. pose proof (header_ends _ _ _ _ _ _ E2) as N2. apply read_header_protocol in E2 as [P2 _]. destruct (LE _ N2) as [N2' L2].
    destruct y2 as [h|e|]; [|destruct P2 as [c ->]; eapply BAD; [| | | |exact H]; auto|contradiction].
    destruct (negb (bytes_eqb method _)).
    { destruct (bytes_eqb method _); [|eapply BAD; [| | | |exact H]; auto]. inversion H; subst. left. split; [exact N2'|]. cbn. split; [exact HV|]. split; [exact L2|discriminate]. }
    destruct (py_choose_out cfg _) as [o ch]. destruct (choose_in _ _) as [k|]; [|eapply BAD; [| | | |exact H]; auto].
    destruct (read_content (pu_take (ums k)) (-1) h true _) as [r y3] eqn:E3. pose proof (content_ends _ _ _ _ _ _ _ _ E3) as N3. cbn [r_sock] in N3.
    apply (content_fares (pu_take (ums k)) (given_part k (pending s)) (fun f => unanswered f -> in_part (pending s) k)) in E3.
    2:{ intros; eapply given_ends; eassumption. }
    2:{ intros k0 d p k' f A B. pose proof (given_take _ _ _ _ _ _ _ A B) as X. exact X. }
    2:{ exists []. cbn [r_sink r_sock concat app]. split; [reflexivity|]. apply part_ends. exact N2'. }
    assert (N3' : ends (pending (r_sock r)) (pending s1)) by (eapply ends_trans; eassumption). destruct (LE _ N3') as [N4 L4].
    assert (DEC : forall f, {unanswered f} + {~ unanswered f}) by (intros [[]|]; cbn; auto).
    destruct y3 as [h2|e|].
    - destruct E3 as (ps & HO & PT). assert (PP : part_of (concat ps) (pending s)) by (eapply part_trans; [exact PT|apply part_left]).
      destruct (pu_finish (ums k) (r_sink r)) as [k2 y4] eqn:EF. destruct y4 as [[]|e|].
      + destruct (Z.ltb_spec 3 (v_major (version_of k (pu_version (ums k) k2)))) as [V|V].
        { right. exists k, ps. split; [exact PP|]. eapply trouble_call; eauto. }
        assert (M : (pb_method (pu_builder (ums k) k2) <> None \/ pb_object (pu_builder (ums k) k2) = Some PyNone) \/
                    (pb_method (pu_builder (ums k) k2) = None /\ pb_object (pu_builder (ums k) k2) <> Some PyNone)).
        { destruct (pb_method (pu_builder (ums k) k2)); [left; left; discriminate|]. destruct (pb_object (pu_builder (ums k) k2)) as [[]|]; try (right; split; [reflexivity|discriminate]). auto. }
        destruct M as [M|M]; [|right; exists k, ps; split; [exact PP|]; eapply trouble_call; eauto].
        inversion H; subst. left. split; [exact N4|]. cbn [ps_ver ps_is_head]. split; [|split; [exact L4|intros _; split; [exact M|]]].
        { destruct k; exact V. } exists k, ps, (r_sink r), k2. repeat split; assumption.
      + destruct (DEC (Exn e)) as [U|U]; [right; exists k, ps; split; [exact PP|]; eapply trouble_end; eauto|]. eapply BAD; [| | | |exact H]; auto.
      + right. exists k, ps. split; [exact PP|]. eapply trouble_end with (f := Undef); eauto; exact I.
    - destruct E3 as [[c ->]|E3]; [eapply BAD; [| | | |exact H]; auto|]. destruct (DEC (Exn e)) as [U|U]; [right; exists k; exact (E3 U)|]. eapply BAD; [| | | |exact H]; auto.
    - right. exists k. exact (E3 I).
  Qed.
End Reading.

(** ** Serving *)
Section Serving.
  Context {W : Type}.
  Variable message : exn -> bytes.
  Variable own : pyexn -> pystr.
  Variable host : datetime -> datetime.
  Variable cfg : pconfig W.
  Variable ums : in_type -> pyum.
  Variable fin : Z -> bytes.
  Variable reason : Z -> bytes.
  Variable cut : bytes -> list bytes.
  Variable added : W -> header.
  Variable g : pregistry (W:=W).
  Variable client : py.
  Hypothesis WELL : well_behaved g.
  (** What is built holds strings of Python. *)
  Hypothesis KEEPS : forall whole b, built_from ums whole b -> pb_ok b.
  Hypothesis READ : forall f w, pf_read cfg = Some f -> snd (f w) <> Crashed.
  Hypothesis HEAD : forall f w, pf_head cfg = Some f -> snd (f w) <> Crashed.
  Notation one := (py_serve_one message own host cfg ums (writers fin) reason cut added g client).
  Notation loop := (py_serve_loop message own host cfg ums (writers fin) reason cut added g client).

  Definition bad_result (whole : bytes) : Prop := exists name params, received_call own ums whole name params /\ exists w w' v, dispatch_call own g client w name params = (w', D_value v) /\ ~ writable host v.
  Definition null_call (whole : bytes) : Prop := r_post g <> None /\ exists name params, received_call own ums whole name params /\ (~ is_text name \/ exists t, params = No_params t).
  Definition crashes (whole : bytes) : Prop := bad_result whole \/ null_call whole.
  Definition crash (x : served) : Prop := x = Sv_abort \/ x = Sv_undef.
  Definition step_ok (n : nat) (whole : bytes) (c : pconn (W:=W)) (x : pstep) : Prop :=
    match x with
    | Pnext _ => v_major (ps_ver (pc_srv c)) <= 3 /\ (List.length (pending (pc_sock c)) < n)%nat /\ ends (pending (pc_sock c)) whole
    | Pstop => True
    | Pend x => ~ crash x
    end.

  Lemma send_ver : forall st data flushed, ps_ver (fst (py_send cfg cut st data flushed)) = ps_ver st.
  Proof. intros. reflexivity. Qed.
  Lemma part_trans_r : forall p q r : bytes, part_of p q -> ends q r -> part_of p r.
  Proof. intros p q r P E. eapply part_trans; [apply part_ends; exact E|exact P]. Qed.
  Lemma crashes_ends : forall p q, crashes p -> ends p q -> crashes q.
  Proof.
    intros p q [(n & ps & (k & pp & s & s' & m & P & X) & Y)|(Z & n & ps & (k & pp & s & s' & m & P & X) & Y)] E.
    - left. exists n, ps. split; [|exact Y]. exists k, pp, s, s', m. split; [eapply part_trans_r; eassumption|exact X].
    - right. split; [exact Z|]. exists n, ps. split; [|exact Y]. exists k, pp, s, s', m. split; [eapply part_trans_r; eassumption|exact X].
  Qed.
  Lemma built_asks : forall whole b name, built_from ums whole b -> pb_method b = Some name -> received_call own ums whole (c_string name) (py_params own b).
  Proof. intros whole b name (k & ps & s & s' & P & HO & HF & ->) M. exists k, ps, s, s', name. auto 7. Qed.
  Lemma dispatched_value : forall whole w name b, built_from ums whole b -> pb_method b = Some name ->
    (exists v, snd (dispatch_call own g client w (c_string name) (py_params own b)) = D_value v) \/ null_call whole.
  Proof.
    intros whole w name b BF M. pose proof (built_asks _ _ _ BF M) as A. apply KEEPS in BF. pose proof (params_ok own b) as PO.
    assert (PF : match py_params own b with Params _ => True | No_params t => fine (Threw t) end).
    { unfold py_params. destruct (pb_data b) as [v|e| |]; [destruct v; first [exact I|apply fine_threw]| | |]; apply fine_threw. }
    destruct (r_post g) as [f|] eqn:EP.
    - destruct (py_params own b) as [l|t] eqn:E.
      + destruct (dispatch_call own g client w (c_string name) (Params l)) as [w1 [v| |]] eqn:ED; [left; eexists; reflexivity| |];
          (right; split; [congruence|]; exists (c_string name), (Params l); split; [exact A|]; left; intro T; destruct (dispatch_strs own g client WELL w _ l (or_introl T) (PO l BF eq_refl)) as [v V]; rewrite ED in V; discriminate).
      + right. split; [congruence|]. exists (c_string name), (No_params t). split; [exact A|]. right. eauto.
    - left. destruct (py_params own b) as [l|t]; [apply (dispatch_safe_post own g client WELL); exact EP|]. apply (dispatch_safe_none own g client WELL). split; [exact EP|exact PF].
  Qed.

  Lemma handle_any : forall st s w wire b c x n whole, v_major (ps_ver st) <= 3 -> (List.length (pending s) < n)%nat -> ends (pending s) whole ->
    (ps_is_head st = false -> (pb_method b <> None \/ pb_object b = Some PyNone) /\ built_from ums whole b) ->
    py_handle own host cfg (writers fin) reason cut added g client st s w wire b = (c, x) -> step_ok n whole c x \/ crashes whole.
  Proof.
    intros st s w wire b c x n whole HV HL HE HB H. unfold py_handle in H. cbv zeta in H. destruct (ps_is_head st).
    - left. destruct (pf_head cfg) as [f|] eqn:EH; [|inversion H; subst; exact I]. pose proof (HEAD f w eq_refl) as NC. destruct (f w) as [w1 [v|t|]]; cbn [snd] in NC; [|inversion H; subst; exact I|congruence].
      destruct (as_long v) as [z|]; [|inversion H; subst; exact I]. destruct (z =? 0); inversion H; subst; [|exact I]. cbn. auto.
    - destruct (HB eq_refl) as [HB1 BF]. clear HB. rename HB1 into HB. destruct (Z.ltb_spec 3 (v_major (ps_ver st))); [lia|].
      assert (G : forall name, pb_method b = Some name ->
        (match dispatch_call own g client w (c_string name) (py_params own b) with
          | (w1, D_value v) =>
              let '(o, x) := py_marshal (writers fin (ps_out st) (ps_ver st)) (result_calls host v) in
              let '(st2, sent) := py_send cfg cut (mkPSrv (ps_out st) (ps_chunks st) (ps_ver st) (ps_close st) false (ps_own st ++ added w1)) o (done x) in
              match x with
              | Mar_done => (mkPConn st2 s w1 (wire ++ sent), Pnext true)
              | Mar_raised => (mkPConn st2 s w1 (wire ++ sent ++ py_error_text reason HTTP_INTERNAL_SERVER_ERROR), Pstop)
              | Mar_failed Undef => (mkPConn st2 s w1 (wire ++ sent), Pend Sv_undef)
              | Mar_failed (Exn (StreamError _)) => (mkPConn st2 s w1 (wire ++ sent), Pend (Sv_raise PE_Runtime))
              | Mar_failed (Exn (HTTPError code)) => (mkPConn st2 s w1 (wire ++ sent ++ py_error_text reason code), Pstop)
              | Mar_failed (Exn (ProtocolError n)) => (mkPConn st2 s w1 (wire ++ sent), Pend (Sv_protocol n))
              | Mar_failed (Exn _) => (mkPConn st2 s w1 (wire ++ sent), Pend Sv_abort)
              end
          | (w1, _) => (mkPConn (mkPSrv (ps_out st) (ps_chunks st) (ps_ver st) (ps_close st) false (ps_own st ++ added w1)) s w1 wire, Pend Sv_undef)
          end) = (c, x) -> step_ok n whole c x \/ crashes whole).
      { clear H HB. intros name EM H. destruct (dispatched_value whole w name b BF EM) as [[v V]|BC]; [|right; right; exact BC]. pose proof (built_asks _ _ _ BF EM) as AS. destruct (dispatch_call own g client w (c_string name) (py_params own b)) as [w1 d] eqn:ED. cbn [snd] in V. subst d.
        assert (DW : (~ crash match x with Pend y => y | _ => Sv_none end) \/ ~ writable host v -> step_ok n whole c x \/ crashes whole).
        { intros [X|X]; [|right; left; exists (c_string name), (py_params own b); split; [exact AS|]; eauto 10]. left. destruct x; [|exact I|exact X].
          destruct (py_marshal _ _) as [o m]. destruct (py_send _ _ _ _ _) as [st2 sent] eqn:ES. apply (f_equal fst) in ES. cbn [fst] in ES.
          destruct m as [| |[[]|]]; inversion H; subst; cbn; auto. }
        apply DW. clear DW.
        (* the value is writable or not: decided by the outcome *)
        pose proof (fun Wr => run_streamy fin (ps_out st) (ps_ver st) _ (ma_init (writers fin (ps_out st) (ps_ver st))) (result_quiet host v Wr)) as RS.
        unfold py_marshal in H. destruct (ma_run (writers fin (ps_out st) (ps_ver st)) _ _) as [[o ms] f]. cbn [snd] in RS.
        destruct f as [f|].
        - destruct (py_send _ _ _ _ _) as [st2 sent]. destruct f as [e|]; [destruct e|]; inversion H; subst;
            first [left; intros [X|X]; discriminate X | right; exact RS].
        - left. destruct (snd (result_calls host v)); destruct (py_send _ _ _ _ _) as [st2 sent]; inversion H; subst; intros [X|X]; discriminate X. }
      destruct (pb_object b) as [ob|].
      + destruct ob; try (inversion H; subst; left; exact I);
          (destruct (pb_method b) as [name|] eqn:EM; [exact (G name eq_refl H)|destruct HB as [HB|HB]; [congruence|discriminate]]).
      + destruct (pb_method b) as [name|] eqn:EM; [exact (G name eq_refl H)|destruct HB as [HB|HB]; [congruence|discriminate]].
  Qed.

  Lemma one_any : forall c c' x, v_major (ps_ver (pc_srv c)) <= 3 -> one c = (c', x) ->
    step_ok (List.length (pending (pc_sock c))) (pending (pc_sock c)) c' x \/ (exists k, in_part ums (pending (pc_sock c)) k) \/ crashes (pending (pc_sock c)).
  Proof.
    intros c c' x HV H. unfold py_serve_one in H.
    assert (B : forall w x, py_before cfg (pc_world c) = (w, Some x) -> ~ crash x).
    { intros w y E. unfold py_before in E. destruct (pf_read cfg) as [f|] eqn:ER; [|discriminate]. pose proof (READ f (pc_world c) eq_refl) as NC.
      destruct (f (pc_world c)) as [w1 [v|t|]]; cbn [snd] in NC; [discriminate| |congruence]. inversion E; subst. destruct (t_fault t); [intros [X|X]; discriminate|]. destruct (t_text t); intros [X|X]; discriminate. }
    destruct (py_before cfg (pc_world c)) as [w [y|]]; [inversion H; subst; left; exact (B _ _ eq_refl)|]. clear B.
    destruct (py_read_request cfg ums (pc_srv c) (pc_sock c)) as [[st s] y] eqn:ER. destruct (request_any cfg ums _ _ _ _ _ HV ER) as [[N R]|T]; [|auto].
    destruct y as [b|e|]; [| |contradiction].
    - destruct R as (R1 & R2 & R3). destruct (handle_any st s w (pc_wire c) b c' x _ _ R1 R2 N R3 H) as [X|X]; auto.
    - destruct R as (R1 & R2 & R3). left. destruct e; try (exfalso; apply R2; exact I); try (inversion H; subst; first [exact I|intros [X|X]; discriminate X]).
      destruct (Z.ltb_spec 3 (v_major (ps_ver st))); [lia|]. unfold py_marshal in H. cbn [fst snd] in H.
      destruct (fault_written fin (ps_out st) (ps_ver st) (c_str (message (StreamError msg)))) as (t & ms & E). rewrite E in H.
      inversion H; subst. cbn. split; [exact R1|]. split; [eapply R3; reflexivity|exact N].
  Qed.
  Lemma in_part_ends : forall p q k, in_part ums p k -> ends p q -> in_part ums q k.
  Proof. intros p q k (ps & P & T) E. exists ps. split; [|exact T]. eapply part_trans; [apply part_ends; exact E|exact P]. Qed.
  Lemma loop_any : forall fuel n c c' x, (List.length (pending (pc_sock c)) < fuel)%nat -> v_major (ps_ver (pc_srv c)) <= 3 -> loop fuel n c = (c', x) -> crash x ->
    (exists k, in_part ums (pending (pc_sock c)) k) \/ crashes (pending (pc_sock c)).
  Proof.
    induction fuel as [|fuel IH]; intros n c c' x HF HV H HC; [lia|]. cbn [py_serve_loop] in H.
    destruct (one c) as [c1 y] eqn:EO. destruct (one_any _ _ _ HV EO) as [OK|X]; [|exact X].
    destruct y as [b| |z]; [| |inversion H; subst; contradiction].
    - destruct OK as (V & L & N). destruct (_ || _); [inversion H; subst; destruct HC; discriminate|].
      assert (L2 : (List.length (pending (pc_sock c1)) < fuel)%nat) by lia.
      destruct (IH _ _ _ _ L2 V H HC) as [(k & T)|B]; [left; exists k; eapply in_part_ends; eassumption|right; eapply crashes_ends; eassumption].
    - inversion H; subst. destruct HC; discriminate.
  Qed.
End Serving.

(** ** The unmarshallers of the library *)
Section Kinds.
  Variable host : datetime -> datetime.
  Variable pass native : bool.
  Variables (strtod : bytes -> option Z * bool) (erange : bool).
  Variable ums : in_type -> pyum.
  Notation step := (pb_step host pass native).
  Hypothesis BIN : ums In_binary = pbin_um step T_METHOD_CALL.
  Hypothesis B64 : ums In_base64 = pb64_um step T_METHOD_CALL.
  Hypothesis URL : forall p, ums (In_url p) = purl_um step strtod erange p.

  Lemma unm_finish_any : forall u x, unm_finish u = x -> x = Ok tt \/ exists m, x = Err (StreamError m).
  Proof. intros u x <-. unfold unm_finish. destruct (_ || _); eauto. Qed.
  Lemma bin_pieces : forall pieces u b, hand_over (pu_take (pbin_um step T_METHOD_CALL)) (u, b) pieces =
    let '(u', b', f) := unmarshall_all pb step T_METHOD_CALL u b pieces in ((u', b'), f).
  Proof.
    induction pieces as [|d r IH]; intros u b; [reflexivity|]. cbn [hand_over]. cbn [pu_take pbin_um fst snd]. cbn [unmarshall_all].
    destruct (unmarshall pb step T_METHOD_CALL u b d) as [[u1 b1] [f|]]; [reflexivity|]. apply IH.
  Qed.
  Lemma bin_none : forall pieces s f, hand_over (pu_take (pbin_um step T_METHOD_CALL)) (pu_init (pbin_um step T_METHOD_CALL)) pieces = (s, f) ->
    match f with
    | Some f => ~ unanswered f
    | None => forall s' x, pu_finish (pbin_um step T_METHOD_CALL) s = (s', x) ->
        (exists m, x = Err (StreamError m)) \/ x = Ok tt /\ v_major (pu_version (pbin_um step T_METHOD_CALL) s') <= 3 /\ pb_method (pu_builder (pbin_um step T_METHOD_CALL) s') <> None
    end.
  Proof.
    intros pieces s f H. change (pu_init (pbin_um step T_METHOD_CALL)) with (unm_init, pb_init) in H. rewrite bin_pieces in H.
    destruct (unmarshall_all pb step T_METHOD_CALL unm_init pb_init pieces) as [[u b] f0] eqn:E. pose proof (call_any host pass native _ _ _ _ E) as X. inversion H; subst.
    destruct f as [f|]; [destruct X as [m ->]; exact (fun Y => Y)|]. intros s' x HF. cbn [pu_finish pbin_um fst] in HF. inversion HF; subst.
    cbn [pu_version pu_builder pbin_um fst snd]. destruct (unm_finish_any u _ eq_refl) as [O|O]; [right; split; [exact O|exact (X O)]|left; exact O].
  Qed.
  Lemma binary_fine : forall pieces, ~ troubles (ums In_binary) In_binary pieces.
  Proof.
    intros pieces T. rewrite BIN in T. destruct T as [s f HO U|s s' x f HO HF X U|s s' HO HF X]; pose proof (bin_none _ _ _ HO) as B; cbn beta iota in B.
    - exact (B U).
    - destruct (B _ _ HF) as [[m ->]|(-> & _)]; destruct X as [[X ->]|(e & X & ->)]; inversion X; subst; exact U.
    - destruct (B _ _ HF) as [[m Y]|(_ & V & M)]; [discriminate|]. destruct X as [X|[X _]]; [cbn [version_of] in X; lia|contradiction].
  Qed.
  Lemma base64_fine : forall pieces, ~ troubles (ums In_base64) In_base64 pieces.
  Proof.
    intros pieces T. rewrite B64 in T.
    destruct (behind_outputs (pu_take (pbin_um step T_METHOD_CALL)) pieces [] (pu_init (pbin_um step T_METHOD_CALL))) as (q & E).
    assert (EH : hand_over (pu_take (pb64_um step T_METHOD_CALL)) (pu_init (pb64_um step T_METHOD_CALL)) pieces =
      (let '(k', f) := hand_over (pu_take (pbin_um step T_METHOD_CALL)) (pu_init (pbin_um step T_METHOD_CALL)) (b64_outputs [] pieces) in (q, k', f))) by exact E. clear E.
    pose proof (bin_none (b64_outputs [] pieces)) as B.
    destruct (hand_over (pu_take (pbin_um step T_METHOD_CALL)) (pu_init (pbin_um step T_METHOD_CALL)) (b64_outputs [] pieces)) as [k' f0]. specialize (B _ _ eq_refl).
    destruct T as [s f HO U|s s' x f HO HF X U|s s' HO HF X]; pose proof (eq_trans (eq_sym EH) HO) as HH; injection HH as <- ->.
    - exact (B U).
    - assert (EF : pu_finish (pb64_um step T_METHOD_CALL) (q, k') = ((q, k'), unm_finish (fst k'))) by reflexivity. pose proof (eq_trans (eq_sym EF) HF) as HF2. clear HF EF. rename HF2 into HF. specialize (B _ _ eq_refl). destruct B as [[m B]|(B & _)]; rewrite B in HF;
        injection HF as _ <-; destruct X as [[X ->]|(e & X & ->)]; inversion X; subst; exact U.
    - assert (EF : pu_finish (pb64_um step T_METHOD_CALL) (q, k') = ((q, k'), unm_finish (fst k'))) by reflexivity. pose proof (eq_trans (eq_sym EF) HF) as HF2. clear HF EF. rename HF2 into HF. specialize (B _ _ eq_refl). destruct B as [[m B]|(B & V & M)]; rewrite B in HF; [discriminate|]. injection HF as <-.
      destruct X as [X|[X _]]; [cbn in X; lia|]. apply M. exact X.
  Qed.

  Lemma bin_keeps : keeps (pbin_um step T_METHOD_CALL).
  Proof.
    intros pieces s s' H F. cbn [pu_finish pbin_um] in F. inversion F; subst s'. cbn [pu_builder pbin_um].
    change (pu_init (pbin_um step T_METHOD_CALL)) with (unm_init, pb_init) in H. rewrite bin_pieces in H.
    destruct (unmarshall_all pb step T_METHOD_CALL unm_init pb_init pieces) as [[u b] f0] eqn:E. inversion H; subst.
    refine (unmarshall_all_origin pb step T_METHOD_CALL pb_ok _ pieces unm_init pb_init u b None ready_init init_ok E).
    intros b0 e b' K E'. pose proof (step_ok_strs host pass native b0 e K) as X. rewrite E' in X. exact X.
  Qed.
  Lemma b64_keeps : keeps (pb64_um step T_METHOD_CALL).
  Proof.
    intros pieces s s' HO F.
    destruct (behind_outputs (pu_take (pbin_um step T_METHOD_CALL)) pieces [] (pu_init (pbin_um step T_METHOD_CALL))) as (q & E).
    assert (EH : hand_over (pu_take (pb64_um step T_METHOD_CALL)) (pu_init (pb64_um step T_METHOD_CALL)) pieces =
      (let '(k', f) := hand_over (pu_take (pbin_um step T_METHOD_CALL)) (pu_init (pbin_um step T_METHOD_CALL)) (b64_outputs [] pieces) in (q, k', f))) by exact E. clear E.
    pose proof (bin_keeps (b64_outputs [] pieces)) as K.
    destruct (hand_over (pu_take (pbin_um step T_METHOD_CALL)) (pu_init (pbin_um step T_METHOD_CALL)) (b64_outputs [] pieces)) as [k' f0].
    pose proof (eq_trans (eq_sym EH) HO) as HH. injection HH as <- ->.
    assert (EF : pu_finish (pb64_um step T_METHOD_CALL) (q, k') = ((q, k'), unm_finish (fst k'))) by reflexivity. pose proof (eq_trans (eq_sym EF) F) as F2. injection F2 as <- F3.
    refine (K k' k' eq_refl _). change (pu_finish (pbin_um step T_METHOD_CALL) k') with (k', unm_finish (fst k')). rewrite F3. reflexivity.
  Qed.

  (** Forms: the containers the builder closes are those that were opened. *)
  Definition kept (n : nat) (b : pb) : Prop := pb_method b <> None /\ (pb_error b = true \/ List.length (pb_stack b) = S n).
  Lemma place_len : forall k v b, List.length (pb_stack (place k v b)) = List.length (pb_stack b) /\ pb_method (place k v b) = pb_method b /\ pb_error (place k v b) = pb_error b.
  Proof. intros k v [st ? ? ? ? ?]; destruct k; destruct st as [|[? ?] ?]; repeat split; reflexivity. Qed.
  Lemma value_kept : forall n v b, kept n b -> kept n (pb_value v b).
  Proof.
    intros n v b [M K]. unfold pb_value. destruct (pb_error b) eqn:E; [split; auto|]. destruct K as [K|K]; [discriminate|].
    destruct (link_of b) as [k|]; [|split; [exact M|left; reflexivity]]. destruct (place_len k v b) as (A & B & C). split; [rewrite B; exact M|right; rewrite A; exact K].
  Qed.
  Lemma open_kept : forall n v b, kept n b -> kept (S n) (pb_open v b).
  Proof.
    intros n v b [M K]. unfold pb_open. destruct (pb_error b) eqn:E; [split; auto|]. destruct K as [K|K]; [discriminate|].
    destruct (link_of b) as [k|]; [|split; [exact M|left; reflexivity]]. split; [exact M|right]. cbn [pb_stack List.length]. rewrite K. reflexivity.
  Qed.
  Lemma close_kept : forall n b, kept (S n) b -> snd (pb_close b) = None /\ kept n (fst (pb_close b)).
  Proof.
    intros n b [M K]. unfold pb_close. destruct (pb_error b) eqn:E; [cbn; split; [reflexivity|split; auto]|]. destruct K as [K|K]; [discriminate|].
    destruct (pb_stack b) as [|[k c] r] eqn:ES; [discriminate|]. cbn [fst snd List.length] in *. split; [reflexivity|].
    destruct (place_len k (pb_value_of c) (pb_with r b)) as (A & B & C). split; [rewrite B; exact M|right; rewrite A; cbn [pb_with pb_stack]; lia].
  Qed.
  Definition simple (e : event) : Prop := match e with EMethodCall _ | EMethodResponse | EFault _ _ => False | _ => True end.
  Lemma events_kept : forall es n b, Forall simple es -> depth n es <> None -> kept n b -> snd (pb_events step b es) = None /\ pb_method (fst (pb_events step b es)) <> None.
  Proof.
    induction es as [|e es IH]; intros n b F D K; [split; [reflexivity|exact (proj1 K)]|]. inversion F; subst. cbn [pb_events].
    assert (GO : forall m, snd (step b e) = None -> kept m (fst (step b e)) -> depth m es <> None ->
      snd (match step b e with (t', None) => pb_events step t' es | x => x end) = None /\ pb_method (fst (match step b e with (t', None) => pb_events step t' es | x => x end)) <> None).
    { intros m E1 E2 E3. destruct (step b e) as [b' f]. cbn [fst snd] in *. subst f. eapply IH; eassumption. }
    destruct e; try contradiction; cbn [depth] in D; cbn [pb_step] in *.
    - apply (GO n); [reflexivity|apply value_kept; exact K|exact D].
    - apply (GO n); [reflexivity|apply value_kept; exact K|exact D].
    - apply (GO n); [reflexivity|apply value_kept; exact K|exact D].
    - apply (GO n); [reflexivity|apply value_kept; exact K|exact D].
    - apply (GO n); match goal with |- context [py_decode pass ?t] => destruct (py_decode pass t) | _ => idtac end; try reflexivity; try exact D.
      + apply value_kept; exact K.
      + cbn [fst]. destruct (pb_error b) eqn:E; [exact K|]. split; [exact (proj1 K)|left; reflexivity].
    - apply (GO n); [reflexivity|apply value_kept; exact K|exact D].
    - apply (GO n); [reflexivity|apply value_kept; exact K|exact D].
    - apply (GO (S n)); [reflexivity|apply open_kept; exact K|exact D].
    - apply (GO n); [reflexivity| |exact D]. cbn [fst]. destruct (pb_error b) eqn:E; [exact K|]. destruct K as [M [K|K]]; [congruence|]. split; [exact M|right; exact K].
    - destruct n as [|n]; [congruence|]. destruct (close_kept n b K). apply (GO n); assumption.
    - apply (GO (S n)); [reflexivity|apply open_kept; exact K|exact D].
    - destruct n as [|n]; [congruence|]. destruct (close_kept n b K). apply (GO n); assumption.
  Qed.

  (** What a form makes the builder do. *)
  Definition nice (a : trace) : Prop := Forall simple (fst a) /\ match snd a with None | Some Undef => True | Some (Exn e) => exists m, e = StreamError m end.
  Lemma nice_then : forall a k, nice a -> nice k -> nice (then_ a k).
  Proof. intros [l [f|]] [l' f'] A K; unfold then_; [exact A|]. destruct A as [A _], K as [K1 K]. split; [apply Forall_app; auto|exact K]. Qed.
  Lemma nice_seq : forall l, Forall nice l -> nice (seq_trace l).
  Proof. induction 1; [split; [constructor|exact I]|]. cbn [seq_trace]. apply nice_then; assumption. Qed.
  Lemma nice_one : forall e, simple e -> nice ([e], None).
  Proof. intros e H. split; [constructor; [exact H|constructor]|exact I]. Qed.
  Lemma iso_errors : forall s e, parse_iso s = Err e -> exists m, e = StreamError m.
  Proof.
    intros s e. unfold parse_iso. destruct (take_digits 4 _) as [[|? ?] s1]; [intro H; inversion H; eauto|]. destruct (take_digits 2 _) as [[|? ?] s2]; [intro H; inversion H; eauto|].
    destruct (take_digits 2 _) as [[|? ?] s3]; [intro H; inversion H; eauto|].
    destruct (match s3 with [] => _ | _ => _ end) as [[[? ?] ?] ?]. discriminate.
  Qed.
  Lemma nice_build : forall x, nice (of_res (build_one strtod erange x)).
  Proof.
    assert (ERR : forall m, nice (of_res (Err (StreamError m)))) by (intro e; split; [constructor|cbn; eauto]).
    intros [k s]. unfold build_one. destruct k; try (apply nice_one; exact I).
    - split; [constructor|exact I].
    - destruct (negb _); [apply ERR|]. destruct (_ || _); [apply ERR|apply nice_one; exact I].
    - destruct (strtod (c_str s)) as [[d|] e]; [|apply ERR]. destruct (_ || _); [apply ERR|apply nice_one; exact I].
    - pose proof (iso_errors s) as U. destruct (parse_iso s) as [d|e|]; cbn [bind]; [apply nice_one; exact I| |split; [constructor|exact I]]. destruct (U e eq_refl) as [m ->]. apply ERR.
  Qed.
  Lemma nice_dump : forall kv, nice (dump_member strtod erange kv).
  Proof.
    intros [name l]. unfold dump_member. apply nice_then; [apply nice_one; exact I|]. destruct (ends_brackets name).
    - apply nice_then; [apply nice_one; exact I|]. apply nice_then; [|apply nice_one; exact I]. apply nice_seq. apply Forall_map. apply Forall_forall. intros. apply nice_build.
    - destruct l; [split; [constructor|exact I]|apply nice_build].
  Qed.
  Lemma urldecode_errors : forall n s e, (List.length s <= n)%nat -> urldecode s <> Err e.
  Proof.
    induction n as [|n IH]; intros [|c r] e L; try discriminate; [cbn in L; lia|]. cbn [urldecode]. cbn [List.length] in L.
    destruct (is_char 37 c).
    - destruct r as [|a [|b r']]; try discriminate. assert (L2 : (List.length r' <= n)%nat) by (cbn in L; lia). specialize (IH r' e L2). destruct (urldecode r'); cbn [bind]; congruence.
    - assert (L2 : (List.length r <= n)%nat) by lia. specialize (IH r e L2). destruct (is_char 43 c); destruct (urldecode r); cbn [bind]; congruence.
  Qed.
  Lemma values_errors : forall segs m e, values_of segs m = Err e -> exists t, e = StreamError t.
  Proof.
    induction segs as [|s segs IH]; intros m e H; [discriminate|]. cbn [values_of] in H. destruct (break_at 61 s) as [name [raw|]]; [|eapply IH; eauto].
    pose proof (fun e => urldecode_errors (List.length raw) raw e (le_n _)) as U. destruct (urldecode raw) as [d|e'|]; cbn [bind] in H; [|exfalso; exact (U e' eq_refl)|discriminate].
    destruct (resolve_type (unquote d)) as [k|e'|] eqn:ER; cbn [bind] in H; [eapply IH; eauto| |discriminate]. injection H as <-.
    revert ER. unfold resolve_type. destruct (unquote d) as [|c v]; [discriminate|]. repeat match goal with |- context [if ?b then _ else _] => destruct b end; intro H; inversion H; eauto.
  Qed.
  Lemma url_finish_nice : forall method body, exists es f, url_finish strtod erange method body = (EMethodCall method :: es, f) /\ nice (es, f).
  Proof.
    intros method body. unfold url_finish. pose proof (values_errors (split_at 38 body) []) as VE. destruct (values_of (split_at 38 body) []) as [m|e|].
    - assert (N : nice (then_ ([EOpenStruct (zlen m)], None) (then_ (seq_trace (map (dump_member strtod erange) m)) ([ECloseStruct], None)))).
      { apply nice_then; [apply nice_one; exact I|]. apply nice_then; [|apply nice_one; exact I]. apply nice_seq. apply Forall_map. apply Forall_forall. intros. apply nice_dump. }
      destruct (then_ ([EOpenStruct (zlen m)], None) _) as [es f]. exists es, f. split; [reflexivity|exact N].
    - exists [], (Some (Exn e)). split; [reflexivity|]. split; [constructor|]. exact (VE e eq_refl).
    - exists [], (Some Undef). split; [reflexivity|]. split; [constructor|exact I].
  Qed.
  Lemma url_pieces : forall p pieces b t, hand_over (pu_take (purl_um step strtod erange p)) (b, t) pieces = ((b ++ concat pieces, t), None).
  Proof.
    intros p. induction pieces as [|d r IH]; intros b t; cbn [hand_over concat]; [rewrite app_nil_r; reflexivity|]. cbn [pu_take purl_um fst snd].
    change (hand_over _ _ r) with (hand_over (pu_take (purl_um step strtod erange p)) (b ++ d, t) r). rewrite IH, app_assoc. reflexivity.
  Qed.
  Lemma form_fine : forall p pieces, troubles (ums (In_url p)) (In_url p) pieces -> bad_form (concat pieces).
  Proof.
    intros p pieces T. rewrite URL in T.
    pose proof (url_pieces p pieces [] pb_init) as EH. cbn [app] in EH.
    destruct (url_finish_safe strtod erange (url_method p) (concat pieces)) as [SU SD]. destruct (url_finish_nice (url_method p) (concat pieces)) as (es & f & EU & F & N). rewrite EU in SU, SD. cbn [fst snd] in SU, SD, F, N.
    assert (K : exists t, pb_events step pb_init (EMethodCall (url_method p) :: es) = (t, None) /\ pb_method t <> None).
    { cbn [pb_events pb_step pb_first pb_init pb_error negb andb].
      match goal with |- exists t, pb_events step ?b es = _ /\ _ => pose proof (events_kept es 0 b F) as EK end.
      cbn [depth] in SD. destruct (EK SD) as [E1 E2]; [split; [discriminate|right; reflexivity]|]. match type of E1 with snd ?x = None => destruct x as [t g] end. cbn [fst snd] in *. subst g. eauto. }
    destruct K as (t & ET & MT).
    assert (EF : pu_finish (purl_um step strtod erange p) (concat pieces, pb_init) = ((concat pieces, t), match f with None => Ok tt | Some (Exn e) => Err e | Some Undef => UB end)).
    { cbn [pu_finish purl_um fst snd]. rewrite EU, ET. reflexivity. }
    destruct T as [s f0 HO U|s s' x f0 HO HF X U|s s' HO HF X]; pose proof (eq_trans (eq_sym EH) HO) as HH; inversion HH; subst s.
    - pose proof (eq_trans (eq_sym EF) HF) as HF2. clear HF. inversion HF2; subst x. destruct f as [[e|]|].
      + destruct N as [m ->]. exfalso. destruct X as [[X _]|(e & X & ->)]; [discriminate|]. injection X as <-. exact U.
      + apply SU. reflexivity.
      + exfalso. destruct X as [[X _]|(e & X & ->)]; discriminate.
    - exfalso. pose proof (eq_trans (eq_sym EF) HF) as HF2. clear HF. inversion HF2; subst s'. cbn [pu_version pu_builder purl_um snd version_of] in X. destruct X as [X|[X _]]; [|exact (MT X)].
      revert X. cbn. lia.
  Qed.
End Kinds.
