(** C28, C54: URL encoded calls. *)
From Coq Require Import Lia.
From Verif Require Import Base Value M_BinUnmarshal M_TreeBuilder Text M_Iso M_Url S_Value S_Events S_Wire S_Url
  L_Base L_Text L_RoundTrip L_TreeBuilder L_Dup L_Url L_UrlSafe.

(** C28: every percent encoding of a byte string decodes to that string. *)
Theorem C28_decode : forall s t, pct s t -> urldecode t = Ok s.
Proof. exact urldecode_pct. Qed.
Print Assumptions C28_decode.

(** C28: no text whose last character is not '%' makes the decoder read behind the end. *)
Theorem C28_safe_partial : forall s, last s x00 <> x25 -> urldecode s <> UB.
Proof. intros s H. eapply urldecode_safe_aux; [apply Nat.le_refl|exact H]. Qed.
Print Assumptions C28_safe_partial.
(** C28: exactly the texts ending in a '%' that begins an escape make it do so. *)
Theorem C28_unsafe_exactly : forall s, urldecode s = UB <-> dangling s.
Proof. exact urldecode_dangling. Qed.
Print Assumptions C28_unsafe_exactly.
Example C28_unsafe_sample : dangling (str "a%2%%") /\ urldecode (str "a%2%%") = UB /\ ~ dangling (str "a%2%") /\ urldecode (str "a%2%") <> UB.
Proof.
  assert (D : forall s, urldecode s <> UB -> ~ dangling s) by (intros s N D; apply N, urldecode_dangling, D).
  split; [apply urldecode_dangling; vm_compute; reflexivity|]. split; [vm_compute; reflexivity|]. split; [apply D; vm_compute; discriminate|vm_compute; discriminate].
Qed.

(** C28 is false of the code for a '%' at the end: the iterator passes the end. *)
Theorem C28_percent_at_end_refuted : exists s, urldecode s = UB /\ values_of (split_at 38 (str "a=1" ++ s)) [] = UB.
Proof. exists (str "%"). split; reflexivity. Qed.
Print Assumptions C28_percent_at_end_refuted.

Example C28_sample : urldecode (str "a%20b+c%2B%2f%e1") = Ok (str "a b c+/" ++ [xe1])
  /\ pct (str "a b") (str "a%20b") /\ last (str "a%4") x00 <> x25.
Proof.
  split; [vm_compute; reflexivity|]. split; [|vm_compute; discriminate].
  change (str "a b") with [x61; x20; x62]. change (str "a%20b") with [x61; x25; x32; x30; x62].
  constructor; [vm_compute; discriminate|vm_compute; discriminate|].
  apply pct_hex; [reflexivity|reflexivity|].
  constructor; [vm_compute; discriminate|vm_compute; discriminate|constructor].
Qed.

Lemma url_method_dotted : forall p, ~ In x00 p -> url_method (x2f :: p) = dotted p.
Proof.
  intros p H. cbn [url_method]. rewrite c_str_id.
  - unfold dotted. apply map_ext. intro c. unfold is_char.
    destruct (Byte.eqb c x2f) eqn:E; [apply byte_dec_bl in E; subst; reflexivity|].
    replace (b2z c =? 47) with false; auto. symmetry. apply Z.eqb_neq. intro X.
    change 47 with (b2z x2f) in X. apply b2z_inj in X. subst. discriminate.
  - apply Forall_forall. intros c I X. change 0 with (b2z x00) in X. apply b2z_inj in X. subst. auto.
Qed.

(** C54: a call "/a/b" with a query of name=value pairs, values in any percent encoding, arrives as the call
    of "a.b" with one struct, which has exactly the members the pairs define. *)
Theorem C54_url_call : forall val strtod p pairs segs, ~ In x00 p -> Forall2 (segment_of strtod) pairs segs ->
  exists evs t m,
    url_finish strtod false (url_method (x2f :: p)) (join [x26] segs) = (evs, None)
    /\ replay (tb_step val) tb_init evs = (t, None)
    /\ tb_method t = dotted p
    /\ tb_data t = Ok (VArray [VStruct m]) /\ increasing m
    /\ forall k, exists v, member_spec pairs k v /\ map_get k m = option_map (plain (make_datetime val)) v.
Proof.
  intros val strtod p pairs segs NZ F. rewrite url_method_dotted by auto.
  set (g := group pairs []).
  assert (VO : values_of (split_at 38 (join [x26] segs)) [] = Ok (enc_map g)).
  { destruct segs as [|s0 segs].
    - inversion F; subst. reflexivity.
    - rewrite split_join.
      + change (@nil (bytes * list (ukind * bytes))) with (enc_map []). eapply values_of_group; eauto.
      + discriminate.
      + clear - F. induction F as [|pr sg ps sgs S F IH]; constructor; auto.
        destruct S as (enc & -> & _ & _ & K & E & _). intros c I. apply in_app_or in I. destruct I as [I|I]; [apply K; auto|].
        apply in_app_or in I. destruct I as [[<-|[]]|I]; [vm_compute; discriminate|auto]. }
  destruct (group_spec pairs [] I (Forall_nil _)) as (G1 & G2 & G3). fold g in G1, G2, G3.
  assert (OKS : forall kv, In kv g -> blen (fst kv) <= 255 /\ Forall (uval_ok strtod) (snd kv)).
  { assert (FP : Forall (fun pr => blen (fst pr) <= 255 /\ uval_ok strtod (snd pr)) pairs).
    { clear - F. induction F as [|pr sg ps sgs S F IH]; constructor; auto. destruct S as (enc & _ & _ & OK & _ & _ & B). auto. }
    assert (GEN : forall ps m, Forall (fun pr => blen (fst pr) <= 255 /\ uval_ok strtod (snd pr)) ps ->
       (forall kv : bytes * list uval, In kv m -> blen (fst kv) <= 255 /\ Forall (uval_ok strtod) (snd kv)) ->
       forall kv, In kv (group ps m) -> blen (fst kv) <= 255 /\ Forall (uval_ok strtod) (snd kv)).
    { clear. induction ps as [|[k v] ps IH]; intros m FP H; cbn [group]; auto.
      inversion FP as [|? ? [HB HV] FP']; subst. cbn [fst snd] in *. apply IH; auto.
      intros kv I. 
      assert (GEN2 : forall (m : list (bytes * list uval)) k x, In kv (map_set k x m) -> In kv m \/ kv = (k, x) \/ exists k', kv = (k', x) /\ k' = k).
      { clear. induction m as [|[k0 y] m IHm]; intros k x I; cbn [map_set] in I.
        - destruct I as [I|[]]; auto.
        - destruct (bytes_cmp k k0) eqn:E.
          + destruct I as [I|I]; [|left; right; auto]. apply bytes_cmp_eq in E. subst. right. left. auto.
          + destruct I as [I|I]; [right; left; auto|left; auto].
          + destruct I as [I|I]; [left; left; auto|]. destruct (IHm _ _ I) as [A|A]; [left; right; auto|auto]. }
      assert (X : forall l, map_get k m = Some l -> Forall (uval_ok strtod) l).
      { intros l E.
        assert (exists k', In (k', l) m) as [k' J].
        { clear - E. induction m as [|[k0 y] m IHm]; [discriminate|]. cbn [map_get] in E.
          destruct (bytes_cmp k k0); [inversion E; subst; eexists; left; reflexivity|destruct (IHm E) as [k' J]; exists k'; right; auto..]. }
        apply (H _ J). }
      assert (N : Forall (uval_ok strtod) (match map_get k m with Some l => l ++ [v] | None => [v] end)).
      { destruct (map_get k m) as [l|]; [|auto]. apply Forall_app. split; auto. }
      destruct (GEN2 _ _ _ I) as [J|[->|(k' & -> & ->)]]; auto. }
    apply GEN; auto. intros kv []. }
  set (l := map group_member g).
  assert (UF : url_finish strtod false (dotted p) (join [x26] segs)
    = (EMethodCall (dotted p) :: EOpenStruct (zlen g) :: flat_map member_events l ++ [ECloseStruct], None)).
  { unfold url_finish. rewrite VO. rewrite dump_group.
    - cbn [then_ fst snd app]. unfold enc_map. rewrite zlen_map. reflexivity.
    - apply Forall_forall. intros kv J. split; [rewrite Forall_forall in G2; auto|apply OKS; auto]. }
  assert (FB : Forall (fun kv => blen (fst kv) <= 255 /\ builds val (snd kv)) l).
  { apply Forall_forall. intros kv J. apply in_map_iff in J. destruct J as ([name us] & <- & J).
    destruct (OKS _ J) as [B _]. unfold group_member. cbn [fst snd] in *. split.
    - unfold extract_member. destruct (ends_brackets name); auto. rewrite blen_zlen in *.
      unfold ztake. unfold zlen in *. rewrite firstn_length. lia.
    - unfold group_value. destruct (ends_brackets name).
      + apply builds_array. apply Forall_forall. intros x X. apply in_map_iff in X. destruct X as (u & <- & _). apply builds_uval.
      + rewrite Forall_forall in G2. specialize (G2 _ J). cbn in G2. destruct us; [congruence|]. apply builds_uval. }
  destruct (dup_members val l (mkTB [mkFrame [] (BStruct []); mkFrame [] (BArr [])] RBottom true [] (dotted p) (-500) [] []) [] [] _ FB eq_refl) as [mm E].
  do 3 eexists. split; [exact UF|]. split.
  { cbn [replay]. change (tb_step val tb_init (EMethodCall (dotted p))) with (mkTB [mkFrame [] (BArr [])] RBottom true [] (dotted p) (-500) [] [], @None fail).
    cbv iota beta. 
    change (tb_step val _ (EOpenStruct (zlen g))) with (mkTB [mkFrame [] (BStruct []); mkFrame [] (BArr [])] RBottom true [] (dotted p) (-500) [] [], @None fail).
    cbv iota beta. rewrite replay_app, E. cbn [replay tb_step]. unfold tb_close. cbn [with_stack tb_stack f_key f_body body_value].
    cbn [frame_add f_body app]. reflexivity. }
  split; [reflexivity|]. split; [reflexivity|]. split; [apply set_all_increasing; exact I|].
  intro k. rewrite set_all_get by exact I.
  replace (match last_value k (map (fun kv => (fst kv, plain (make_datetime val) (snd kv))) l) with Some x => Some x | None => map_get k [] end)
    with (option_map (plain (make_datetime val)) (last_value k l)).
  2:{ clear. induction l as [|kv l IH]; [reflexivity|]. cbn [map]. rewrite !last_value_cons. cbn [fst snd].
      destruct (last_value k l); cbn [option_map] in IH;
        destruct (last_value k (map _ l)); cbn [map_get] in *; try (inversion IH; subst; reflexivity); try discriminate.
      destruct (bytes_eqb k (fst kv)); reflexivity. }
  exists (last_value k l). split; [|reflexivity]. subst l. rewrite group_lookup by auto.
  assert (VN : forall k, values_named k pairs = map uval_value (uvalues_named k pairs)).
  { intro k0. unfold values_named, uvalues_named. rewrite map_map. reflexivity. }
  assert (NE : forall k l, map_get k g = Some l -> l <> []).
  { intros k0 l E0. clear - E0 G2. induction G2 as [|[k1 y] g0 N G2 IH]; [discriminate|]. cbn [map_get] in E0.
    destruct (bytes_cmp k0 k1); auto. inversion E0; subst. exact N. }
  pose proof (G3 (k ++ brackets)) as A. cbn [map_get app] in A. pose proof (G3 k) as B. cbn [map_get app] in B.
  destruct (map_get (k ++ brackets) g) as [us|] eqn:E1.
  - pose proof (NE _ _ E1) as N. rewrite A, <- VN. apply ms_array. rewrite VN, <- A. destruct us; [congruence|discriminate].
  - assert (V0 : values_named (k ++ brackets) pairs = []) by (rewrite VN, <- A; reflexivity).
    destruct (ends_brackets k) eqn:EB.
    + apply ms_none; auto. left. apply ends_brackets_spec. auto.
    + assert (NB : ~ bracketed k) by (rewrite <- ends_brackets_spec; congruence).
      destruct (map_get k g) as [us|] eqn:E2.
      * pose proof (NE _ _ E2) as N. destruct us as [|u us]; [congruence|]. eapply ms_first; auto.
        rewrite VN, <- B. reflexivity.
      * apply ms_none; auto. right. rewrite VN, <- B. reflexivity.
Qed.
Print Assumptions C54_url_call.

(** Members are determined by the pairs. *)
Theorem C54_members_unique : forall pairs k v1 v2, member_spec pairs k v1 -> member_spec pairs k v2 -> v1 = v2.
Proof.
  intros pairs k v1 v2 A B. destruct A, B; try congruence.
  - destruct H3; [contradiction|congruence].
  - destruct H0; [contradiction|congruence].
Qed.
Print Assumptions C54_members_unique.

(** C54 is false of the code in a thread whose [errno] is ERANGE from some earlier call: plain integers are refused. *)
Theorem C54_stale_errno_refuted : forall strtod method,
  snd (url_finish strtod false method (str "a=1")) = None
  /\ snd (url_finish strtod true method (str "a=1")) = Some (Exn (StreamError "Unsupported size of int (too small/big)")).
Proof. intros. split; vm_compute; reflexivity. Qed.
Print Assumptions C54_stale_errno_refuted.

(** ... and for negative numbers, which no value syntax covers. *)
Theorem C54_negative_refuted : forall strtod e method,
  snd (url_finish strtod e method (str "a=-1")) = Some (Exn (StreamError "Can't resolve type of value")).
Proof. intros. vm_compute. reflexivity. Qed.
Print Assumptions C54_negative_refuted.

Example C54_sample :
  let st : bytes -> option Z * bool := fun _ => (None, false) in
  let pairs := [(str "a", UInt (str "7")); (str "b[]", UString (str "x""y")); (str "b[]", UNull); (str "a", UBool true);
                (str "d", UDate 2024 2 29 12 30 59 1 0 false)] in
  Forall2 (segment_of st) pairs [str "a=7"; str "b[]=""x\%22y"""; str "b[]=null"; str "a=true"; str "d=2024-02-29T12:30:59%2B0100"]
  /\ url_finish st false (url_method (str "/system/do")) (str "a=7&b[]=""x\%22y""&b[]=null&a=true&d=2024-02-29T12:30:59%2B0100")
     = ([EMethodCall (str "system.do"); EOpenStruct 3; EMember (str "a"); EInt 7; EMember (str "b"); EOpenArray 2; EString (str "x""y"); ENull; ECloseArray;
         EMember (str "d"); EDateTime (mkDT 2024 2 29 12 30 59 (-1) (-1) (-3600)); ECloseStruct], None).
Proof.
  cbn zeta. split; [|vm_compute; reflexivity].
  assert (LIT : forall s, (forall c, In c s -> b2z c <> 37 /\ b2z c <> 43) -> pct s s).
  { clear. induction s as [|c s IH]; intro H; [constructor|]. constructor; [apply H; left; auto..|]. apply IH. intros; apply H; right; auto. }
  assert (NIN : forall (s : bytes) (P : byte -> Prop), Forall P s -> forall c, In c s -> P c) by (intros s P; apply Forall_forall).
  repeat match goal with |- Forall2 _ _ _ => constructor end.
  - exists (str "7"). split; [reflexivity|]. split; [apply LIT, NIN; repeat constructor; vm_compute; congruence|].
    split; [repeat split; try discriminate; repeat constructor; vm_compute; congruence|].
    split; [apply NIN; repeat constructor; vm_compute; congruence|].
    split; [apply NIN; repeat constructor; vm_compute; congruence|vm_compute; congruence].
  - exists (str """x\%22y"""). split; [reflexivity|]. split.
    { change (pct [x22; x78; x5c; x22; x79; x22] [x22; x78; x5c; x25; x32; x32; x79; x22]).
      do 3 (apply pct_lit; [vm_compute; discriminate..|]). apply pct_hex; [reflexivity..|].
      apply LIT, NIN. repeat constructor; vm_compute; congruence. }
    split; [exact I|].
    split; [apply NIN; repeat constructor; vm_compute; congruence|].
    split; [apply NIN; repeat constructor; vm_compute; congruence|vm_compute; congruence].
  - exists (str "null"). split; [reflexivity|]. split; [apply LIT, NIN; repeat constructor; vm_compute; congruence|].
    split; [exact I|]. split; [apply NIN; repeat constructor; vm_compute; congruence|].
    split; [apply NIN; repeat constructor; vm_compute; congruence|vm_compute; congruence].
  - exists (str "true"). split; [reflexivity|]. split; [apply LIT, NIN; repeat constructor; vm_compute; congruence|].
    split; [exact I|]. split; [apply NIN; repeat constructor; vm_compute; congruence|].
    split; [apply NIN; repeat constructor; vm_compute; congruence|vm_compute; congruence].
  - exists (str "2024-02-29T12:30:59%2B0100"). split; [reflexivity|]. split.
    { change (pct (str "2024-02-29T12:30:59+0100") (str "2024-02-29T12:30:59%2B0100")).
      unfold str. cbn [String.list_byte_of_string].
      do 19 (apply pct_lit; [vm_compute; discriminate..|]). apply pct_hex; [reflexivity..|].
      do 4 (apply pct_lit; [vm_compute; discriminate..|]). constructor. }
    split; [split; [lia|repeat constructor; lia]|]. split; [apply NIN; repeat constructor; vm_compute; congruence|].
    split; [apply NIN; repeat constructor; vm_compute; congruence|vm_compute; congruence].
Qed.
