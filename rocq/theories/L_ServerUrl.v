(** What is fed to an unmarshaller comes from the connection; URL-encoded requests. *)
From Coq Require Import Lia.
From Verif Require Import Base Value Text M_Marshal M_BinUnmarshal M_TreeBuilder M_Base64 M_Iso M_Url M_Http M_HttpIO M_HttpWriter M_Registry M_Server S_Url S_Http S_Server
  L_Base L_HttpIO L_Server3 L_UrlSafe.

Definition ends (p q : bytes) : Prop := exists a, q = a ++ p.
Lemma ends_refl : forall p, ends p p.
Proof. intro p. exists []. reflexivity. Qed.
Lemma ends_trans : forall p q r, ends p q -> ends q r -> ends p r.
Proof. intros p q r [a ->] [b ->]. exists (b ++ a). rewrite app_assoc. reflexivity. Qed.
Lemma ends_drop : forall n p, ends (zdrop n p) p.
Proof. intros n p. exists (ztake n p). symmetry. apply ztake_zdrop. Qed.

Lemma part_refl : forall A (l : list A), part_of l l.
Proof. induction l; constructor; assumption. Qed.
Lemma part_trans : forall A (b c : list A), part_of b c -> forall a, part_of a b -> part_of a c.
Proof.
  intros A b c H. induction H as [c|x b c H IH|x b c H IH]; intros a HA.
  - inversion HA; subst. constructor.
  - inversion HA; subst; [constructor|apply part_take; auto|apply part_skip; auto].
  - apply part_skip. auto.
Qed.
Lemma part_app : forall A (x : list A) p q, part_of p q -> part_of (x ++ p) (x ++ q).
Proof. induction x; intros p q H; [exact H|]. apply part_take. auto. Qed.
Lemma part_ends : forall p q, ends p q -> part_of p q.
Proof. intros p q [a ->]. induction a; [apply part_refl|apply part_skip; assumption]. Qed.
Lemma part_left : forall A (x p : list A), part_of x (x ++ p).
Proof. intros A x p. rewrite <- (app_nil_r x) at 1. apply part_app. constructor. Qed.

Lemma line_ends : forall fuel check limit opt first acc s s' x, read_line_loop fuel check limit opt first acc s = (s', x) -> ends (pending s') (pending s).
Proof.
  induction fuel as [|fuel IH]; intros check limit opt first acc s s' x H; cbn [read_line_loop] in H; [inversion H; subst; apply ends_refl|].
  destruct (pending s) as [|a p] eqn:EP; [inversion H; subst; rewrite EP; apply ends_refl|]. rewrite <- EP in *. clear a p EP.
  destruct (find_char 10 _) as [i|].
  - destruct (_ && _); inversion H; subst; [apply ends_refl|apply ends_drop].
  - destruct (_ && _); [inversion H; subst; apply ends_refl|]. apply IH in H. eapply ends_trans; [exact H|apply ends_drop].
Qed.
Lemma line_opt_ends : forall check limit opt s s' x, read_line_opt check limit opt s = (s', x) -> ends (pending s') (pending s).
Proof. intros check limit opt s s' x H. eapply line_ends. exact H. Qed.
Lemma header_ends : forall fuel opt h s s' x, read_header_loop fuel opt h s = (s', x) -> ends (pending s') (pending s).
Proof.
  induction fuel as [|fuel IH]; intros opt h s s' x H; cbn [read_header_loop] in H; [inversion H; subst; apply ends_refl|].
  destruct (read_line_opt false (-1) opt s) as [s1 y] eqn:EL. pose proof (line_opt_ends _ _ _ _ _ _ EL) as E1. destruct y as [line|e|]; cbn [sbind] in H; try (inversion H; subst; exact E1).
  destruct line as [|c l]; [inversion H; subst; exact E1|]. destruct (get_header_value (c :: l)) as [[n v]|]; [|inversion H; subst; exact E1].
  destruct n as [|n0 n]; [destruct h; [inversion H; subst; exact E1|]|]; apply IH in H; eapply ends_trans; eassumption.
Qed.
Lemma chunk_size_ends : forall s s' x, read_chunk_size s = (s', x) -> ends (pending s') (pending s).
Proof.
  intros s s' x H. unfold read_chunk_size in H. destruct (read_line_opt false (-1) false s) as [s1 y] eqn:EL. pose proof (line_opt_ends _ _ _ _ _ _ EL) as E1.
  destruct y as [line|e|]; cbn [sbind] in H; try (inversion H; subst; exact E1). destruct (read_hex_long line); [destruct (_ <? 0)|]; inversion H; subst; exact E1.
Qed.

(** A relation between sockets and unmarshallers kept by reading: what the unmarshaller is given comes from the socket. *)
Section Carry.
  Context {K : Type}.
  Variable sink : K -> bytes -> K * option fail.
  Variable limit : Z.
  Variable J : K -> bytes -> K -> bytes -> Prop.
  Hypothesis JR : forall k p, J k p k p.
  Hypothesis JT : forall k1 p1 k2 p2 k3 p3, J k1 p1 k2 p2 -> J k2 p2 k3 p3 -> J k1 p1 k3 p3.
  Hypothesis JE : forall k p q, ends q p -> J k p k q.
  Hypothesis JS : forall k d p k' f, sink k d = (k', f) -> J k (d ++ p) k' p.
  Definition carry (r r' : rd (K:=K)) : Prop := J (r_sink r) (pending (r_sock r)) (r_sink r') (pending (r_sock r')).
  Lemma carry_trans : forall a b c, carry a b -> carry b c -> carry a c.
  Proof. intros a b c. unfold carry. apply JT. Qed.
  Lemma carry_sock : forall A (r : rd (K:=K)) (y : sock * res A), ends (pending (fst y)) (pending (r_sock r)) -> carry r (fst (with_sock r y)).
  Proof. intros A r [s x] E. unfold carry, with_sock. cbn [fst snd r_sink r_sock]. apply JE. exact E. Qed.

  Lemma write_carry : forall d (r r' : rd (K:=K)) x p, sink_write sink d r = (r', x) -> pending (r_sock r) = p -> J (r_sink r) (d ++ p) (r_sink r') (pending (r_sock r')).
  Proof.
    intros d r r' x p H EP. unfold sink_write in H. destruct (sink (r_sink r) d) as [k f] eqn:E. pose proof (JS _ _ p _ _ E) as X.
    destruct f as [[e|]|]; inversion H; subst; cbn [r_sink r_sock]; exact X.
  Qed.
  Lemma seen_take : forall want s, seen want s ++ zdrop (blen (seen want s)) (pending s) = pending s.
  Proof.
    intros want s. unfold seen. set (n := Z.min want _). unfold ztake, zdrop, blen. rewrite firstn_length, Nat2Z.id.
    destruct (Nat.min_spec (Z.to_nat n) (List.length (pending s))) as [[_ ->]|[L ->]]; [apply firstn_skipn|].
    rewrite firstn_all2, skipn_all by lia. apply app_nil_r.
  Qed.
  Lemma block_loop_carry : forall fuel n (r r' : rd (K:=K)) x, read_block_loop sink limit fuel n r = (r', x) -> carry r r'.
  Proof.
    induction fuel as [|fuel IH]; intros n r r' x H; cbn [read_block_loop] in H; [inversion H; subst; apply JR|].
    destruct (pending (r_sock r)) as [|a p] eqn:EP; [inversion H; subst; apply JR|]. clear a p EP.
    set (want := if _ || _ then HTTP_BUFF_LENGTH else n) in H. pose proof (seen_take want (r_sock r)) as ST. set (d := seen want (r_sock r)) in *. clearbody d.
    assert (E1 : ends (zdrop (blen d) (pending (r_sock r))) (pending (r_sock r))) by apply ends_drop.
    destruct (_ && _); [inversion H; subst; unfold carry; cbn [r_sink r_sock consume pending]; apply JE; exact E1|].
    destruct (sink_write sink d _) as [r2 y] eqn:EW. pose proof (write_carry _ _ _ _ _ EW eq_refl) as X. cbn [r_sink r_sock consume pending] in X. rewrite ST in X.
    destruct y as [[]|e|]; cbn [sbind] in H; try (inversion H; subst; exact X).
    destruct (n <? 0); [|destruct (_ =? 0); [inversion H; subst; exact X|]]; apply IH in H; eapply carry_trans; [exact X|exact H|exact X|exact H].
  Qed.
  Lemma block_carry : forall n (r r' : rd (K:=K)) x, read_block sink limit n r = (r', x) -> carry r r'.
  Proof.
    intros n r r' x H. unfold read_block in H. destruct (n =? 0); [inversion H; subst; apply JR|]. destruct (_ && _); [inversion H; subst; apply JR|]. eapply block_loop_carry. exact H.
  Qed.
  Lemma chunks_carry : forall fuel h (r r' : rd (K:=K)) x, read_chunks sink limit fuel h r = (r', x) -> carry r r'.
  Proof.
    induction fuel as [|fuel IH]; intros h r r' x H; cbn [read_chunks] in H; [inversion H; subst; apply JR|].
    destruct (read_chunk_size (r_sock r)) as [s1 y] eqn:EC. pose proof (carry_sock _ r (s1, y) (chunk_size_ends _ _ _ EC)) as C1. unfold with_sock in H at 1. cbn [fst snd] in H, C1.
    unfold with_sock in C1. cbn [fst snd] in C1. set (r1 := mkRd s1 (r_sink r) (r_written r)) in *. clearbody r1.
    destruct y as [size|e|]; cbn [sbind] in H; try (inversion H; subst; exact C1). destruct (size =? 0).
    - destruct (read_header true h (r_sock r1)) as [s2 y2] eqn:EH. pose proof (carry_sock _ r1 (s2, y2) (header_ends _ _ _ _ _ _ EH)) as C2. rewrite H in C2. eapply carry_trans; eassumption.
    - destruct (_ && _); [inversion H; subst; exact C1|]. destruct (_ && _); [inversion H; subst; exact C1|].
      destruct (read_block sink limit size r1) as [r2 y2] eqn:EB. apply block_carry in EB. assert (C2 : carry r r2) by (eapply carry_trans; eassumption).
      destruct y2 as [[]|e|]; cbn [sbind] in H; try (inversion H; subst; exact C2).
      destruct (read_line_opt false (-1) false (r_sock r2)) as [s3 y3] eqn:EL. pose proof (carry_sock _ r2 (s3, y3) (line_opt_ends _ _ _ _ _ _ EL)) as C3. unfold with_sock in H, C3. cbn [fst snd] in H, C3.
      assert (C4 : carry r (mkRd s3 (r_sink r2) (r_written r2))) by (eapply carry_trans; eassumption).
      destruct y3 as [line|e|]; cbn [sbind] in H; try (inversion H; subst; exact C4). destruct line; [|inversion H; subst; exact C4]. apply IH in H. eapply carry_trans; eassumption.
  Qed.
  Lemma content_carry : forall h request (r r' : rd (K:=K)) x, read_content sink limit h request r = (r', x) -> carry r r'.
  Proof.
    intros h request r r' x H. unfold read_content in H.
    assert (BL : forall n, sbind (read_block sink limit n r) (fun r _ => (r, Ok h)) = (r', x) -> carry r r').
    { intros n HB. destruct (read_block sink limit n r) as [r1 x1] eqn:EB. apply block_carry in EB. destruct x1 as [[]|e|]; cbn in HB; inversion HB; subst; exact EB. }
    destruct (header_get (str "Content-Length") 0 h) as [v|].
    - destruct (read_dec_long v) as [n|]; [|inversion H; subst; apply JR]. destruct (n <? 0); [inversion H; subst; apply JR|]. destruct (_ && _); [inversion H; subst; apply JR|]. exact (BL n H).
    - destruct (header_get (str "Transfer-Encoding") 0 h) as [v|].
      + destruct (bytes_eqb _ _); [|inversion H; subst; apply JR]. eapply chunks_carry. exact H.
      + destruct request; [inversion H; subst; apply JR|exact (BL (-1) H)].
  Qed.
End Carry.

(** For any unmarshaller: a part of the connection's end remains. *)
Lemma content_ends : forall K (sink : K -> bytes -> K * option fail) limit h request (r r' : rd (K:=K)) x, read_content sink limit h request r = (r', x) ->
  ends (pending (r_sock r')) (pending (r_sock r)).
Proof.
  intros K sink limit h request r r' x H. refine (content_carry sink limit (fun _ p _ q => ends q p) _ _ _ _ h request r r' x H).
  - intros. apply ends_refl.
  - intros. eapply ends_trans; eassumption.
  - auto.
  - intros k d p k' f _. exists d. reflexivity.
Qed.

(** The unmarshaller of forms, with the failure instead of the undefined behaviour. *)
Definition guarded (u : unmarshaller) : unmarshaller :=
  mkUm (um_state u) (um_init u) (um_take u) (fun s => match um_finish u s with (k, UB) => (k, Err (StreamError "%")) | x => x end) (um_version u) (um_builder u).
Lemma guarded_finish : forall u (s : um_state u), tb_data (um_builder u (fst (um_finish u s))) <> UB ->
  snd (um_finish (guarded u) s) <> UB /\ tb_data (um_builder (guarded u) (fst (um_finish (guarded u) s))) <> UB.
Proof.
  intros [T i t f v b] s. cbn [um_state um_finish um_builder guarded]. intro B. destruct (f s) as [k [[]|e|]]; cbn [fst snd] in *; (split; [discriminate|exact B]).
Qed.
Lemma guarded_same : forall u (s : um_state u), snd (um_finish u s) <> UB -> um_finish (guarded u) s = um_finish u s.
Proof. intros [T i t f v b] s. cbn [um_state um_finish guarded]. destruct (f s) as [k [[]|e|]]; cbn [snd]; congruence. Qed.
Lemma guarded_safe : forall strtod erange val path, um_safe (guarded (url_um strtod erange val path)).
Proof.
  intros strtod erange val path pieces s f H.
  assert (E : um_all (guarded (url_um strtod erange val path)) (um_init (guarded (url_um strtod erange val path))) pieces = ((concat pieces, tb_init), None)).
  { pose proof (url_um_take strtod erange val path pieces ([], tb_init)) as X. cbn [fst snd app] in X. rewrite <- X. clear.
    change (um_init (guarded (url_um strtod erange val path))) with (@nil byte, tb_init). generalize (@nil byte, tb_init). induction pieces as [|d ps IH]; intro p; [reflexivity|].
    cbn [um_all]. change (um_take (guarded (url_um strtod erange val path)) p d) with (um_take (url_um strtod erange val path) p d).
    destruct (um_take (url_um strtod erange val path) p d) as [q [g|]]; [reflexivity|]. apply IH. }
  rewrite E in H. inversion H; subst. split; [discriminate|]. intros _. destruct (url_um_finish strtod erange val path (concat pieces)) as [A B].
  destruct (guarded_finish (url_um strtod erange val path) (concat pieces, tb_init) B) as [X Y]. split; [exact X|intros _; exact Y].
Qed.

(** Reading a request with this failure is the same, or a form was read whose end is undefined. *)
Definition ums' (ums : in_type -> unmarshaller) (k : in_type) : unmarshaller := match k with In_url p => guarded (ums k) | _ => ums k end.
Lemma guarded_same_request : forall cfg ums st s, read_request cfg ums st s = read_request cfg (ums' ums) st s \/
  exists p s2 h r h2, ends (pending s2) (pending s) /\
    read_content (um_take (ums (In_url p))) (-1) h true (mkRd s2 (um_init (ums (In_url p))) 0) = (r, Ok h2) /\ snd (um_finish (ums (In_url p)) (r_sink r)) = UB.
Proof.
  intros cfg ums st s. unfold read_request. destruct (read_line_opt true (-1) true s) as [s1 y1] eqn:E1. pose proof (line_opt_ends _ _ _ _ _ _ E1) as N1.
  destruct y1 as [line|e|]; auto. destruct line as [|c0 line]; auto. set (line0 := c0 :: line) in *. clearbody line0.
  destruct (split_by_space line0 3) as [|method [|path [|protocol [|? ?]]]]; auto. destruct (negb _); auto.
  destruct (read_header false [] s1) as [s2 y2] eqn:E2. assert (N2 : ends (pending s2) (pending s)) by (eapply ends_trans; [eapply header_ends; exact E2|exact N1]).
  destruct y2 as [h|e|]; auto. destruct (negb _); auto. destruct (choose_out cfg _) as [o ch]. destruct (choose_in _ _) as [k|]; auto.
  destruct k as [| |p|]; auto.
  assert (R : forall r h2, read_content (um_take (ums (In_url p))) (-1) h true (mkRd s2 (um_init (ums (In_url p))) 0) = (r, Ok h2) -> snd (um_finish (ums (In_url p)) (r_sink r)) = UB ->
    exists p s2 h r h2, ends (pending s2) (pending s) /\
    read_content (um_take (ums (In_url p))) (-1) h true (mkRd s2 (um_init (ums (In_url p))) 0) = (r, Ok h2) /\ snd (um_finish (ums (In_url p)) (r_sink r)) = UB) by (intros; eauto 10).
  revert R. generalize (exists p s2 h r h2, ends (pending s2) (pending s) /\
    read_content (um_take (ums (In_url p))) (-1) h true (mkRd s2 (um_init (ums (In_url p))) 0) = (r, Ok h2) /\ snd (um_finish (ums (In_url p)) (r_sink r)) = UB).
  intros Q R. unfold ums'. destruct (ums (In_url p)) as [T i t f v b]. cbn [um_state um_take um_init um_finish um_version um_builder guarded] in *.
  destruct (read_content t (-1) h true (mkRd s2 i 0)) as [r [h2|e|]]; auto. specialize (R r h2 eq_refl). destruct (f (r_sink r)) as [k [[]|e|]]; auto.
Qed.

Section Forms.
  Context {W : Type}.
  Variable message : exn -> bytes.
  Variable cfg : config.
  Variables (strtod : bytes -> option Z * bool) (erange : bool) (val : option mktime_t).
  Variable ums : in_type -> unmarshaller.
  Hypothesis URL : forall p, ums (In_url p) = url_um strtod erange val p.
  Variable mars : out_type -> version -> marshaller.
  Variable reason : Z -> bytes.
  Variable cut : bytes -> list bytes.
  Variable added : W -> header.
  Variable g : registry (W:=W).
  Hypothesis UMS : forall k, um_safe (ums' ums k).
  Hypothesis MAS : forall o v, ma_safe (mars o v).
  Hypothesis SAFE : methods_safe g.

  Definition bad_part (data : bytes) : Prop := exists body, part_of body data /\ bad_form body.
  Lemma bad_ends : forall p q, ends p q -> bad_part p -> bad_part q.
  Proof. intros p q E (b & H & B). exists b. split; [|exact B]. eapply part_trans; [apply part_ends; exact E|exact H]. Qed.

  Lemma request_ends : forall st s st' s' x, read_request cfg ums st s = (st', s', x) -> ends (pending s') (pending s).
  Proof.
    intros st s st' s' x H. unfold read_request in H. destruct (read_line_opt true (-1) true s) as [s1 y1] eqn:E1. pose proof (line_opt_ends _ _ _ _ _ _ E1) as N1.
    destruct y1 as [line|e|]; try (inversion H; subst; exact N1). destruct line as [|c0 line]; [inversion H; subst; exact N1|]. set (line0 := c0 :: line) in *. clearbody line0.
    destruct (split_by_space line0 3) as [|method [|path [|protocol [|? ?]]]]; try (inversion H; subst; exact N1). destruct (negb _) in H; [inversion H; subst; exact N1|].
    destruct (read_header false [] s1) as [s2 y2] eqn:E2. assert (N2 : ends (pending s2) (pending s)) by (eapply ends_trans; [eapply header_ends; exact E2|exact N1]).
    destruct y2 as [h|e|]; try (inversion H; subst; exact N2). destruct (negb _) in H; [destruct (bytes_eqb method _); inversion H; subst; exact N2|].
    destruct (choose_out cfg _) as [o ch]. destruct (choose_in _ _) as [k|]; [|inversion H; subst; exact N2].
    destruct (read_content _ (-1) h true _) as [r y3] eqn:E3. apply content_ends in E3. cbn [r_sock] in E3. assert (N3 : ends (pending (r_sock r)) (pending s)) by (eapply ends_trans; eassumption).
    destruct y3 as [h2|e|]; try (inversion H; subst; exact N3). destruct (um_finish (ums k) (r_sink r)) as [k2 [[]|e|]]; inversion H; subst; exact N3.
  Qed.

  Lemma request_same : forall st s, read_request cfg ums st s = read_request cfg (ums' ums) st s \/ bad_part (pending s).
  Proof.
    intros st s. destruct (guarded_same_request cfg ums st s) as [E|(p & s2 & h & r & h2 & N & E & U)]; [left; exact E|right]. revert r E U. rewrite URL. intros r E U.
    pose proof (content_carry (um_take (url_um strtod erange val p)) (-1)
      (fun k q k' q' => snd k' = snd k /\ part_of (fst k' ++ q') (fst k ++ q))) as C. specialize (C
      ltac:(intros; split; [reflexivity|apply part_refl])
      ltac:(intros k1 p1 k2 p2 k3 p3 [A1 B1] [A2 B2]; split; [congruence|eapply part_trans; eassumption])
      ltac:(intros; split; [reflexivity|apply part_app, part_ends; assumption])
      ltac:(intros k d q k' f EQ; inversion EQ; subst; cbn [fst snd]; split; [reflexivity|rewrite <- app_assoc; apply part_refl])
      h true _ _ _ E). unfold carry in C. cbn [r_sink r_sock url_um um_init fst snd app] in C. destruct C as [C1 C2].
    destruct (r_sink r) as [body t] eqn:ER. cbn [fst snd] in C1, C2. subst t.
    destruct (url_um_finish strtod erange val p body) as [A _]. apply (bad_ends (pending s2)); [exact N|].
    exists body. split; [|apply A; exact U]. eapply part_trans; [exact C2|apply part_left].
  Qed.

  Lemma one_same : forall c, serve_one message cfg ums mars reason cut added g c = serve_one message cfg (ums' ums) mars reason cut added g c \/ bad_part (pending (c_sock c)).
  Proof. intro c. unfold serve_one. destruct (request_same (c_srv c) (c_sock c)) as [->|B]; auto. Qed.
  Lemma after_sock : forall st s w log wire a k, c_sock (fst (after_answer (W:=W) cfg reason cut added st s w log wire a k)) = s.
  Proof.
    intros. unfold after_answer. destruct (send_answer _ _ _ _ _ _ _) as [[st2 o] [[]|e|]]; try reflexivity. destruct (o_end a) as [[]|[]|]; reflexivity.
  Qed.
  Lemma one_ends : forall c, ends (pending (c_sock (fst (serve_one message cfg ums mars reason cut added g c)))) (pending (c_sock c)).
  Proof.
    intro c. unfold serve_one. destruct (read_request cfg ums (c_srv c) (c_sock c)) as [[st s] x] eqn:ER. apply request_ends in ER.
    destruct x as [t|e|]; [| |exact ER].
    - cbv zeta. destruct (s_head _).
      + destruct (g_head g) as [f|]; [|exact ER]. destruct (f (c_world c)) as [w [|]]; exact ER.
      + destruct (tb_root t); [exact ER| |]; (destruct (bind (tb_data t) as_array) as [ps|e|]; [|exact ER|exact ER]; destruct (3 <? _); [exact ER|]; rewrite after_sock; exact ER).
    - destruct e; try exact ER.
      cbv zeta. match goal with |- context [after_answer ?a ?b ?c ?d ?e ?f ?g ?h ?i ?j ?k] => pose proof (after_sock e f g h i j k) as X; destruct (after_answer a b c d e f g h i j k) as [c1 r1] end.
      cbn [fst] in X. destruct r1; cbn [fst]; rewrite X; exact ER.
  Qed.
  Lemma loop_url : forall fuel n c, s_extra (c_srv c) <> Old_header -> (List.length (pending (c_sock c)) < fuel)%nat ->
    snd (serve_loop message cfg ums mars reason cut added g fuel n c) = UB -> bad_part (pending (c_sock c)).
  Proof.
    intros fuel n c HX HF H.
    assert (S : serve_loop message cfg ums mars reason cut added g fuel n c = serve_loop message cfg (ums' ums) mars reason cut added g fuel n c \/ bad_part (pending (c_sock c))).
    { clear HX HF H. revert n c. induction fuel as [|fuel IH]; intros n c; [left; reflexivity|]. cbn [serve_loop]. pose proof (one_ends c) as N.
      destruct (one_same c) as [E|B]; [|auto]. rewrite <- E. destruct (serve_one message cfg ums mars reason cut added g c) as [c' [b| |x]]; auto. cbn [fst] in N.
      destruct (_ || _); auto. destruct (IH (if b then u32 (n + 1) else n) c') as [E'|B]; auto. right. eapply bad_ends; eassumption. }
    destruct S as [S|B]; [|exact B]. exfalso. rewrite S in H. revert H.
    apply (serve_loop_any message cfg (ums' ums) mars reason cut added g UMS MAS SAFE fuel fuel n c HX HF HF).
  Qed.
End Forms.
