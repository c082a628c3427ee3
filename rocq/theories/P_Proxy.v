(** C44, C45, C47, C66: construction and destruction of proxies, their cache and their configuration. *)
From Coq Require Import Lia Sorting.Permutation.
From Verif Require Import Base Value Text M_Marshal M_BinUnmarshal M_TreeBuilder M_Values M_Base64 M_Url M_Http M_HttpIO M_HttpWriter M_Registry M_Server M_Client M_Proxy.
From Verif Require Import S_Http S_Registry S_Server S_Client S_Proxy L_Http L_Proxy P_Registry P_Server P_Client.

(** * C44 *)
(** The cache time-out being 1 to 2147483 seconds: every history of constructions and destructions does what [life_step]
    says; what the cache holds is what may still be used when it was last looked at. *)
Theorem C44_cache : forall timeout ops, 1 <= timeout <= 2147483 -> clock_from 0 ops ->
  exists c xs k, run_lives timeout cache_init ops = Some (Ok (c, xs)) /\ life_steps (timeout * 1000) [] ops xs k /\
    map snd (k_map c) = map snd (filter (fun e => last_look 0 ops <? fst e) k).
Proof.
  intros timeout ops T C.
  assert (F : - 2 ^ 31 <= timeout * 1000 < 2 ^ 31) by lia.
  assert (U : u32 (timeout * 1000) = timeout * 1000) by (unfold u32, unsigned; apply Z.mod_small; lia).
  assert (G : good (u32 (timeout * 1000)) 0 [] cache_init).
  { constructor; cbn; try reflexivity; try (intros; contradiction).
    - intros i _. split; [constructor|split; constructor].
    - constructor. }
  destruct (lives_good timeout ltac:(lia) F ops 0 0 [] [] cache_init) as (c & xs & k & es & t' & look & R1 & R2 & R3 & R4 & R5 & ->);
    [lia|lia|exact G|reflexivity|constructor|exact C|].
  rewrite U in R2. exists c, xs, k. split; [exact R1|]. split; [exact R2|].
  rewrite (good_map _ _ _ _ R3). unfold map_of. rewrite map_map. cbn. rewrite <- R4, map_map. reflexivity.
Qed.
Print Assumptions C44_cache.

(** [life_steps] determines what happens. *)
Lemma first_fit : forall u t (a b : kept) x y c d, a ++ x :: c = b ++ y :: d -> fits_request u t x -> fits_request u t y ->
  Forall (fun z => ~ fits_request u t z) a -> Forall (fun z => ~ fits_request u t z) b -> a = b /\ x = y /\ c = d.
Proof.
  intros u t. induction a as [|z a IH]; intros [|w b] x y c d Q X1 X2 X3 X4.
  - injection Q as -> ->. auto.
  - injection Q as -> _. inversion X4; tauto.
  - injection Q as -> _. inversion X3; tauto.
  - injection Q as -> Q. inversion X3; inversion X4; subst. destruct (IH b x y c d Q) as (-> & -> & ->); auto.
Qed.
Lemma life_step_det : forall ms k o x1 k1 x2 k2, life_step ms k o x1 k1 -> life_step ms k o x2 k2 -> x1 = x2 /\ k1 = k2.
Proof.
  intros ms k o x1 k1 x2 k2 A B. inversion A; subst; inversion B; subst; try congruence; auto;
    repeat match goal with H : url_make ?s ?v = Ok ?u, H' : url_make ?s ?v = Ok ?w |- _ => assert (w = u) by congruence; subst w; clear H' end; auto.
  - split; congruence.
  - match goal with H : _ ++ (_, _) :: _ = _ ++ (_, _) :: _ |- _ => eapply first_fit in H; [|eassumption|eassumption|eassumption|eassumption]; destruct H as (-> & Y & ->); injection Y as -> -> end. auto.
  - exfalso. rewrite Forall_app in *. match goal with H : _ /\ Forall _ (_ :: _) |- _ => destruct H as (_ & Z) end. inversion Z; auto.
  - exfalso. rewrite Forall_app in *. match goal with H : _ /\ Forall _ (_ :: _) |- _ => destruct H as (_ & Z) end. inversion Z; auto.
Qed.
Theorem C44_determined : forall ms ops k xs1 k1 xs2 k2, life_steps ms k ops xs1 k1 -> life_steps ms k ops xs2 k2 -> xs1 = xs2 /\ k1 = k2.
Proof.
  intros ms. induction ops as [|o ops IH]; intros k xs1 k1 xs2 k2 A B; inversion A; subst; inversion B; subst; [auto|].
  match goal with H : life_step _ k o _ _, H' : life_step _ k o _ _ |- _ => destruct (life_step_det _ _ _ _ _ _ _ H H') as (-> & ->) end.
  match goal with H : life_steps _ _ ops _ _, H' : life_steps _ _ ops _ _ |- _ => destruct (IH _ _ _ _ _ H H') as (-> & ->) end. auto.
Qed.

(** Nothing is handed out twice: the proxies constructed, but for their configuration, are destroyed ones, each at most
    once, and really new ones. *)
Theorem C44_once : forall timeout ops c xs, 1 <= timeout <= 2147483 -> clock_from 0 ops ->
  run_lives timeout cache_init ops = Some (Ok (c, xs)) ->
  exists reused fresh left, Permutation (made xs) (reused ++ fresh) /\ Forall (fun p => exists u conf, p = new_proxy u conf) fresh /\
    forall conf, Permutation (map (handed conf) (dropped ops)) (map (handed conf) (reused ++ left)).
Proof.
  intros timeout ops c xs T C R. destruct (C44_cache timeout ops T C) as (c' & xs' & k & R' & S & _).
  rewrite R in R'. injection R' as <- <-. clear R.
  assert (H : forall ops k1 xs k2, life_steps (timeout * 1000) k1 ops xs k2 ->
    exists reused fresh, Permutation (made xs) (reused ++ fresh) /\ Forall (fun p => exists u conf, p = new_proxy u conf) fresh /\
    forall conf, Permutation (map (handed conf) (map snd k1 ++ dropped ops)) (map (handed conf) (reused ++ map snd k2))).
  { clear. intros ops k1 xs k2 S. induction S as [k|k o x k1 ops xs k2 S1 S2 (reused & fresh & A & B & D)].
    - exists [], []. split; [constructor|]. split; [constructor|]. intros conf. cbn. rewrite app_nil_r. reflexivity.
    - inversion S1; subst; cbn [made flat_map dropped app].
      + exists reused, fresh. split; [exact A|]. split; [exact B|]. intros conf. specialize (D conf). rewrite H.
        cbn [app]. rewrite (map_app snd) in D. cbn [map snd] in D. rewrite <- app_assoc in D. exact D.
      + exists reused, fresh. split; [exact A|]. split; [exact B|]. intros conf. rewrite H. apply D.
      + exists reused, fresh. auto.
      + exists (handed c p :: reused), fresh. split; [cbn; constructor; exact A|]. split; [exact B|]. intros conf.
        change ((handed c p :: reused) ++ map snd k2) with (handed c p :: (reused ++ map snd k2)). cbn [map].
        change (handed conf (handed c p)) with (handed conf p).
        rewrite <- (D conf). change (handed conf p :: map (handed conf) (map snd (k0 ++ k3) ++ dropped ops)) with (map (handed conf) (p :: map snd (k0 ++ k3) ++ dropped ops)).
        apply Permutation_map. fold (dropped ops). rewrite !map_app. cbn [map snd].
        rewrite <- !app_assoc. symmetry. apply (Permutation_middle (map snd k0) (map snd k3 ++ dropped ops) p).
      + exists reused, (new_proxy u c :: fresh). split; [|split; [constructor; [eauto|exact B]|exact D]].
        cbn. rewrite A. apply Permutation_middle.
      + exists reused, (new_proxy u c :: fresh). split; [|split; [constructor; [eauto|exact B]|exact D]].
        cbn. rewrite A. apply Permutation_middle. }
  destruct (H ops [] xs k S) as (reused & fresh & A & B & D). exists reused, fresh, (map snd k). auto.
Qed.
Print Assumptions C44_once.

(** The time in milliseconds follows the clock. *)
Theorem C44_clock : forall s1 u1 s2 u2, 0 <= s1 < 2 ^ 50 -> 0 <= s2 < 2 ^ 50 -> 0 <= u1 < 1000000 -> 0 <= u2 < 1000000 ->
  s1 * 1000000 + u1 <= s2 * 1000000 + u2 -> 0 <= now_ms s1 u1 <= now_ms s2 u2 /\ now_ms s2 u2 < 2 ^ 62.
Proof.
  intros s1 u1 s2 u2 S1 S2 U1 U2 L. unfold now_ms, u64, unsigned.
  assert (D1 : 0 <= (u1 + 500) / 1000 < 1001) by (split; [apply Z.div_pos; lia|apply Z.div_lt_upper_bound; lia]).
  assert (D2 : 0 <= (u2 + 500) / 1000 < 1001) by (split; [apply Z.div_pos; lia|apply Z.div_lt_upper_bound; lia]).
  rewrite !Z.mod_small by lia. split; [|lia].
  assert (E : s1 < s2 \/ s1 = s2 /\ u1 <= u2) by lia. destruct E as [E|(-> & E)]; [lia|].
  assert (X := Z.div_le_mono (u1 + 500) (u2 + 500) 1000 ltac:(lia) ltac:(lia)). lia.
Qed.

(** Two proxies for one URL and one for another; after a second the first two are handed out in turn; the rest is too
    late. *)
Definition there : bytes := str "http://localhost:2424/RPC2".
Definition other : bytes := str "http://localhost:2424/RPC3".
Definition with_marker (b : string) (p : proxy) : proxy := with_fd (Some (str b)) p.
Definition c1 : pconf := pconf_of ALWAYS.
Definition first_life : list life :=
  [Make there [] c1 1000; Drop (with_marker "a" (new_proxy here c1)) 2000 2001; Drop (with_marker "b" (new_proxy here c1)) 2500 2500;
   Make other [] c1 2600; Make there [] (pconf_of NEVER) 12000; Make there [] c1 12499;
   Drop (with_marker "c" (new_proxy here c1)) 13000 13000; Make there [] c1 22999; Drop (with_marker "c" (new_proxy here c1)) 23000 23000; Make there [] c1 33000].
Example C44_sample : clock_from 0 first_life /\
  match run_lives 10 cache_init first_life with
  | Some (Ok (c, xs)) => map (fun x => match x with Some (Ok p) => Some (x_fd p, a_mode (x_conf p)) | _ => None end) xs =
      [Some (None, ALWAYS); None; None; Some (None, ALWAYS); Some (Some (str "a"), NEVER); Some (Some (str "b"), ALWAYS); None;
       Some (Some (str "c"), ALWAYS); None; Some (None, ALWAYS)] /\ k_map c = []
  | _ => False
  end.
Proof. split; [cbn; repeat split; lia|]. vm_compute. split; reflexivity. Qed.

(** ** What does not hold *)
(** When the clock is set back, a proxy may be handed out long after its time. *)
Theorem C44_clock_back_refuted : exists ops c xs p, run_lives 10 cache_init ops = Some (Ok (c, xs)) /\
  ops = [Drop (with_marker "a" (new_proxy here c1)) 1000000 1000000; Drop (with_marker "b" (new_proxy (mkUrl (str "h") 80 (str "/") false false) c1)) 0 0; Make (str "http://h/") [] c1 900000] /\
  nth 2 xs None = Some (Ok p) /\ x_fd p = Some (str "b").
Proof. eexists _, _, _, _. split; [|split; [reflexivity|]]. vm_compute. reflexivity. vm_compute. auto. Qed.
(** A time-out whose milliseconds do not fit an [int]. *)
Theorem C44_overflow_refuted : forall timeout p t1 t2, 2147484 <= timeout -> a_keep (x_conf p) = true ->
  run_lives timeout cache_init [Drop p t1 t2] = Some UB.
Proof.
  intros timeout p t1 t2 T K. cbn [run_lives]. unfold drop_proxy. rewrite K. unfold move_into.
  assert (Z0 : (timeout =? 0) = false) by (apply Z.eqb_neq; lia). rewrite Z0.
  assert (U : exists c, upkeep t1 cache_init = Some c).
  { unfold upkeep. assert (X : forall n i c, (forall j, tq_timers (k_queues c j) = []) -> exists c', upkeep_from n i t1 c = Some c').
    { induction n as [|n IH]; intros i c E; [eexists; reflexivity|]. cbn [upkeep_from]. destruct (t1 <? _); [apply IH; exact E|].
      cbn [retire]. rewrite E. apply IH. exact E. }
    apply X. reflexivity. }
  destruct U as (c & ->). assert (Z1 : ((- 2 ^ 31 <=? timeout * 1000) && (timeout * 1000 <? 2 ^ 31)) = false) by (apply andb_false_iff; right; apply Z.ltb_ge; lia).
  rewrite Z1. reflexivity.
Qed.

(** * C45 *)
(** Without keep-alive or without the cache, whatever the cache holds, a new proxy is new. *)
Theorem C45_new_partial : forall timeout t server via conf c c' p, a_keep conf = false \/ timeout = 0 ->
  make_proxy timeout t server via conf c = Some (c', Ok p) -> exists u, url_make server via = Ok u /\ p = new_proxy u conf /\ no_headers p.
Proof.
  intros timeout t server via conf c c' p H E. unfold make_proxy in E. destruct (url_make server via) as [u|e|]; try discriminate.
  exists u. split; [reflexivity|].
  assert (X : p = new_proxy u conf).
  { destruct (a_keep conf) eqn:K; [|congruence]. destruct H as [H|H]; [discriminate|]. unfold lookup in E.
    subst timeout. cbn in E. congruence. }
  subst p. split; [reflexivity|split; reflexivity].
Qed.
(** With the cache: no proxy starts with headers as long as none is destroyed with headers; and every proxy starts with the
    configuration it was given, for the address it was given. *)
Theorem C45_clean_partial : forall timeout ops c xs, 1 <= timeout <= 2147483 -> clock_from 0 ops ->
  run_lives timeout cache_init ops = Some (Ok (c, xs)) -> Forall no_headers (dropped ops) -> Forall no_headers (made xs).
Proof.
  intros timeout ops c xs T C R N. destruct (C44_cache timeout ops T C) as (c' & xs' & k & R' & S & _).
  rewrite R in R'. injection R' as <- <-. clear R C.
  assert (H : forall ops k1 xs k2, life_steps (timeout * 1000) k1 ops xs k2 -> Forall (fun e => no_headers (snd e)) k1 -> Forall no_headers (dropped ops) -> Forall no_headers (made xs)).
  { clear. intros ops k1 xs k2 S. induction S as [k|k o x k1 ops xs k2 S1 S2 IH]; intros K D; [constructor|].
    inversion S1; subst; cbn [made flat_map dropped app] in *.
    - rewrite H in D. cbn [app] in D. inversion D; subst. apply IH; [|assumption]. apply Forall_app. split; [assumption|]. constructor; [assumption|constructor].
    - rewrite H in D. auto.
    - auto.
    - apply Forall_app in K. destruct K as (K1 & K2). inversion K2; subst. constructor; [assumption|]. apply IH; [|assumption]. apply Forall_app. auto.
    - constructor; [split; reflexivity|auto].
    - constructor; [split; reflexivity|auto]. }
  exact (H ops [] xs k S ltac:(constructor) N).
Qed.
Theorem C45_configured : forall timeout ops c xs i server via conf t p, 1 <= timeout <= 2147483 -> clock_from 0 ops ->
  run_lives timeout cache_init ops = Some (Ok (c, xs)) -> nth_error ops i = Some (Make server via conf t) -> nth_error xs i = Some (Some (Ok p)) ->
  x_conf p = conf /\ exists u, url_make server via = Ok u /\ same_address (x_url p) u.
Proof.
  intros timeout ops c xs i server via conf t p T C R O X. destruct (C44_cache timeout ops T C) as (c' & xs' & k & R' & S & _).
  rewrite R in R'. injection R' as <- <-. clear R C T. revert i O X.
  induction S as [k|k o x k1 ops xs k2 S1 S2 IH]; intros i O X; [destruct i; discriminate|].
  destruct i as [|i]; [|exact (IH i O X)]. injection O as ->. injection X as ->. inversion S1; subst.
  - split; [reflexivity|]. exists u. split; [assumption|]. match goal with H : fits_request _ _ _ |- _ => apply H end.
  - split; [reflexivity|]. exists u. split; [assumption|]. repeat split; reflexivity.
  - split; [reflexivity|]. exists u. split; [assumption|]. repeat split; reflexivity.
Qed.
Print Assumptions C45_configured.

(** A header added to one proxy is sent by the calls of the next one for the same URL. *)
Definition secret : bytes * bytes := (str "X-Token", str "secret").
Theorem C45_refuted : exists p1 p2 c, 
  make_proxy 10 0 there [] c1 cache_init = Some (cache_init, Ok p1) /\
  run_lives 10 cache_init [Drop (add_header [secret] p1) 0 0; Make there [] c1 1] = Some (Ok (c, [None; Some (Ok p2)])) /\
  x_headers p2 = [secret] /\
  let '(_, es, _) := sample_call p2 (good_net []) "one" [] in exists text, In text (sends es) /\ contains (str "X-Token: secret") text = true.
Proof.
  eexists _, _, _. split; [vm_compute; reflexivity|]. split; [vm_compute; reflexivity|]. split; [reflexivity|].
  vm_compute. eexists. split; [left; reflexivity|]. reflexivity.
Qed.
(** So is one that was meant for a single call that was not made. *)
Theorem C45_once_refuted : exists p2 c,
  run_lives 10 cache_init [Drop (add_header_once [secret] (new_proxy here c1)) 0 0; Make there [] c1 1] = Some (Ok (c, [None; Some (Ok p2)])) /\ x_once p2 = [secret].
Proof. eexists _, _. split; [vm_compute; reflexivity|]. reflexivity. Qed.

(** * C47 *)
(** Every text of the form "M.m" selects a version the marshallers do not know: no call can be made. *)
Theorem C47_refuted : forall major minor m via conf, 0 <= major <= 9 -> 0 <= minor <= 9 ->
  struct_get (str "protocolVersion") m = Some (VString (dec major ++ str "." ++ dec minor)) -> config_from_struct m = Ok (via, conf) ->
  a_version conf <> mkVer major minor /\
  forall ums mars cut callback p n name params, x_conf p = conf ->
    snd (call ums mars cut callback p n name params) = Returned (Err (FrpcError "Not supported protocol version")).
Proof.
  intros major minor m via conf M N S C.
  assert (V : a_version conf = mkVer (48 + major) 46).
  { unfold config_from_struct in C. unfold parse_version, struct_get_default in C.
    fold (struct_get (str "protocolVersion") m) in C. rewrite S in C.
    assert (A : as_string (VString (dec major ++ str "." ++ dec minor)) = Ok (dec major ++ str "." ++ dec minor)) by reflexivity. rewrite A in C. clear A.
    assert (D : exists x y, dec major = [x] /\ dec minor = [y] /\ is_space x = false /\ b2z x = 48 + major).
    { assert (X : In major [0;1;2;3;4;5;6;7;8;9]) by (cbn; lia). assert (Y : In minor [0;1;2;3;4;5;6;7;8;9]) by (cbn; lia).
      cbn in X, Y. repeat destruct X as [<-|X]; try contradiction; (repeat destruct Y as [<-|Y]; try contradiction); eexists _, _; repeat split; vm_compute; reflexivity. }
    destruct D as (x & y & D1 & D2 & D3 & D4). rewrite D1, D2 in C.
    unfold bind in C. change ([x] ++ str "." ++ [y]) with [x; x2e; y] in C. cbn [next_char] in C. rewrite D3 in C. cbv beta iota in C. change (next_char [x2e; y]) with (Some (x2e, [y])) in C. cbv beta iota in C.
    repeat match type of C with context [match ?z with Ok _ => _ | Err _ => _ | UB => _ end] => destruct z; try discriminate end.
    injection C as _ <-. cbn [a_version]. rewrite D4. reflexivity. }
  rewrite V. split; [intros X; injection X; lia|].
  intros ums mars cut callback p n name params E. unfold call. rewrite E, V. cbn [v_major].
  assert (Z1 : (3 <? 48 + major) = true) by (apply Z.ltb_lt; lia). rewrite Z1. reflexivity.
Qed.
Print Assumptions C47_refuted.
(** Nothing given: version 2.1.  What works is the two characters with these codes. *)
Theorem C47_partial : forall m via conf, config_from_struct m = Ok (via, conf) ->
  (no_version m -> a_version conf = mkVer 2 1) /\
  forall a b, is_space a = false -> is_space b = false -> struct_get (str "protocolVersion") m = Some (VString [a; b]) -> a_version conf = mkVer (b2z a) (b2z b).
Proof.
  intros m via conf C. unfold config_from_struct, parse_version, struct_get_default in C. fold (struct_get (str "protocolVersion") m) in C.
  split.
  - intros N. assert (E : match struct_get (str "protocolVersion") m with Some v => v | None => VString [] end = VString []) by (destruct N as [-> | ->]; reflexivity).
    rewrite E in C. unfold bind in C. cbn [as_string] in C.
    repeat match type of C with context [match ?z with Ok _ => _ | Err _ => _ | UB => _ end] => destruct z; try discriminate end.
    injection C as _ <-. reflexivity.
  - intros a b A B E. rewrite E in C. unfold bind in C. cbn [as_string next_char] in C. rewrite A in C. cbv beta iota in C. assert (NB : next_char [b] = Some (b, [])) by (cbn; rewrite B; reflexivity). rewrite NB in C. cbv beta iota in C.
    repeat match type of C with context [match ?z with Ok _ => _ | Err _ => _ | UB => _ end] => destruct z; try discriminate end.
    injection C as _ <-. reflexivity.
Qed.
Example C47_sample : exists via conf, config_from_struct [(str "protocolVersion", VString (str "2.1"))] = Ok (via, conf) /\ a_version conf = mkVer 50 46 /\
  config_from_struct [(str "protocolVersion", VString (str "2"))] = UB.
Proof. eexists _, _. split; [vm_compute; reflexivity|]. split; vm_compute; reflexivity. Qed.

(** * C66 *)
(** The settings in a struct are used, those that are not there have their documented defaults. *)
Theorem C66_config : forall m via rd wr co mode http10 keep, no_version m ->
  setting m "proxyUrl" (VString []) (VString via) ->
  setting m "readTimeout" (VInt 10000) (VInt rd) -> setting m "writeTimeout" (VInt 1000) (VInt wr) -> setting m "connectTimeout" (VInt 10000) (VInt co) ->
  setting m "transferMode" (VInt 0) (VInt mode) -> setting m "useHTTP10" (VBool false) (VBool http10) -> setting m "keepAlive" (VBool false) (VBool keep) ->
  0 <= rd < 2 ^ 31 -> 0 <= wr < 2 ^ 31 -> 0 <= co < 2 ^ 31 -> 0 <= mode < 2 ^ 32 ->
  config_from_struct m = Ok (via, mkPc co rd wr keep mode http10 (mkVer 2 1)).
Proof.
  intros m via rd wr co mode http10 keep NV S1 S2 S3 S4 S5 S6 S7 B1 B2 B3 B4.
  assert (W : forall z, 0 <= z < 2 ^ 31 -> u32 (s32 z) = z /\ u32 z = z).
  { intros z B. unfold u32, s32, signed, unsigned. rewrite (Z.mod_small z (2 ^ 32)) by lia. cbv zeta.
    assert (X : (z <? 2 ^ (32 - 1)) = true) by (apply Z.ltb_lt; cbn; lia). rewrite X. rewrite Z.mod_small by lia. auto. }
  assert (GT : forall name d z, setting m name (VInt d) (VInt z) -> 0 <= z < 2 ^ 31 -> get_timeout m (str name) d = Ok z).
  { intros name d z S B. unfold get_timeout. destruct S as [(-> & X)| -> ].
    - injection X as ->. destruct (W d B) as (_ & ->). reflexivity.
    - cbn. destruct (W z B) as (-> & _). reflexivity. }
  assert (GD : forall name d v, setting m name d v -> struct_get_default (str name) d m = v).
  { intros name d v S. unfold struct_get_default. fold (struct_get (str name) m). destruct S as [(-> & ->)| -> ]; reflexivity. }
  unfold config_from_struct. rewrite (GD _ _ _ S1), (GD _ _ _ S5), (GD _ _ _ S6), (GD _ _ _ S7), (GT _ _ _ S2 B1), (GT _ _ _ S3 B2), (GT _ _ _ S4 B3).
  unfold parse_version, struct_get_default. fold (struct_get (str "protocolVersion") m).
  assert (E : match struct_get (str "protocolVersion") m with Some v => v | None => VString [] end = VString []) by (destruct NV as [-> | ->]; reflexivity).
  rewrite E. cbn [as_string as_int as_bool bind].
  assert (X : u32 mode = mode) by (unfold u32, unsigned; apply Z.mod_small; lia). rewrite X. reflexivity.
Qed.
Print Assumptions C66_config.
(** A setting of another type is refused. *)
Definition int_setting (k : string) : Prop := In k ["readTimeout"; "writeTimeout"; "connectTimeout"; "transferMode"]%string.
Definition bool_setting (k : string) : Prop := In k ["useHTTP10"; "keepAlive"]%string.
Definition text_setting (k : string) : Prop := In k ["proxyUrl"; "protocolVersion"]%string.
Theorem C66_type : forall m k v, struct_get (str k) m = Some v ->
  (int_setting k /\ (forall z, v <> VInt z)) \/ (bool_setting k /\ (forall b, v <> VBool b)) \/ (text_setting k /\ (forall s, v <> VString s)) ->
  parse_version m (str "protocolVersion") <> UB -> config_from_struct m = Err TypeError.
Proof.
  intros m k v S H V.
  assert (AI : forall v, as_int v = Err TypeError \/ exists z, v = VInt z) by (intros []; cbn; eauto).
  assert (AB : forall v, as_bool v = Err TypeError \/ exists z, v = VBool z) by (intros []; cbn; eauto).
  assert (AS : forall v, as_string v = Err TypeError \/ exists z, v = VString z) by (intros []; cbn; eauto).
  assert (AT : forall k d, get_timeout m (str k) d = Err TypeError \/ exists z, get_timeout m (str k) d = Ok z).
  { intros k0 d. unfold get_timeout. destruct (struct_get (str k0) m) as [w|]; [|eauto]. destruct (AI w) as [->|(z & ->)]; cbn; eauto. }
  assert (AV : parse_version m (str "protocolVersion") = Err TypeError \/ exists z, parse_version m (str "protocolVersion") = Ok z).
  { revert V. unfold parse_version. destruct (AS (struct_get_default (str "protocolVersion") (VString []) m)) as [->|(z & ->)]; [left; reflexivity|].
    cbn [as_string bind]. destruct z; [eauto|]. destruct (next_char (b :: z)) as [[a r]|]; [|tauto]. destruct (next_char r) as [[b' r']|]; [eauto|tauto]. }
  unfold config_from_struct.
  set (v1 := struct_get_default (str "proxyUrl") (VString []) m). set (v2 := struct_get_default (str "transferMode") (VInt 0) m).
  set (v3 := struct_get_default (str "useHTTP10") (VBool false) m). set (v4 := struct_get_default (str "keepAlive") (VBool false) m).
  assert (X : as_string v1 = Err TypeError \/ get_timeout m (str "readTimeout") 10000 = Err TypeError \/ get_timeout m (str "writeTimeout") 1000 = Err TypeError \/
    as_int v2 = Err TypeError \/ as_bool v3 = Err TypeError \/ parse_version m (str "protocolVersion") = Err TypeError \/
    get_timeout m (str "connectTimeout") 10000 = Err TypeError \/ as_bool v4 = Err TypeError).
  { unfold struct_get_default in *. fold (struct_get (str "proxyUrl") m) in v1. fold (struct_get (str "transferMode") m) in v2.
    fold (struct_get (str "useHTTP10") m) in v3. fold (struct_get (str "keepAlive") m) in v4.
    destruct H as [(K & H)|[(K & H)|(K & H)]]; unfold int_setting, bool_setting, text_setting in K; cbn [In] in K.
    - destruct (AI v) as [E|(z & E)]; [|elim (H z E)].
      destruct K as [K|[K|[K|[K|[]]]]]; subst k; unfold get_timeout; rewrite ?S, ?E; unfold v2; rewrite ?S, ?E; cbn [bind]; tauto.
    - destruct (AB v) as [E|(z & E)]; [|elim (H z E)].
      destruct K as [K|[K|[]]]; subst k; unfold v3, v4; rewrite ?S, ?E; tauto.
    - destruct (AS v) as [E|(z & E)]; [|elim (H z E)].
      destruct K as [K|[K|[]]]; subst k; unfold v1, parse_version, struct_get_default; fold (struct_get (str "protocolVersion") m); rewrite ?S, ?E; cbn [bind]; tauto. }
  clear - X AI AB AS AT AV.
  destruct (AS v1) as [E1|(z1 & E1)]; [rewrite E1; reflexivity|]. rewrite E1 in *. cbn [as_string bind].
  destruct (AT "readTimeout"%string 10000) as [E2|(z2 & E2)]; rewrite E2 in *; cbn [bind]; [reflexivity|].
  destruct (AT "writeTimeout"%string 1000) as [E3|(z3 & E3)]; rewrite E3 in *; cbn [bind]; [reflexivity|].
  destruct (AI v2) as [E4|(z4 & E4)]; [rewrite E4; reflexivity|]. rewrite E4 in *. cbn [as_int bind].
  destruct (AB v3) as [E5|(z5 & E5)]; [rewrite E5; reflexivity|]. rewrite E5 in *. cbn [as_bool bind].
  destruct AV as [E6|(z6 & E6)]; rewrite E6 in *; cbn [bind]; [reflexivity|].
  destruct (AT "connectTimeout"%string 10000) as [E7|(z7 & E7)]; rewrite E7 in *; cbn [bind]; [reflexivity|].
  destruct (AB v4) as [E8|(z8 & E8)]; [rewrite E8; reflexivity|]. rewrite E8 in *.
  cbn in X. repeat destruct X as [X|X]; discriminate.
Qed.
Example C66_sample : no_version [(str "keepAlive", VBool true); (str "readTimeout", VInt 5)] /\
  setting [(str "keepAlive", VBool true); (str "readTimeout", VInt 5)] "readTimeout" (VInt 10000) (VInt 5) /\
  config_from_struct [(str "keepAlive", VBool true); (str "readTimeout", VInt 5)] = Ok ([], mkPc 10000 5 1000 true 0 false (mkVer 2 1)) /\
  config_from_struct [(str "keepAlive", VInt 1)] = Err TypeError.
Proof. split; [left; reflexivity|]. split; [right; reflexivity|]. split; vm_compute; reflexivity. Qed.
(** Time-outs are cut to 32 bits: a wide one becomes a short one. *)
Theorem C66_wide_refuted : exists conf, config_from_struct [(str "readTimeout", VInt (2 ^ 32 + 1))] = Ok ([], conf) /\ a_read conf = 1.
Proof. eexists. split; [vm_compute; reflexivity|]. reflexivity. Qed.
