(** Lemmas about URLs. *)
From Coq Require Import Lia.
From Verif Require Import Base Text M_Base64 M_Iso M_Url M_Http S_Http L_Base L_Text L_HttpIO L_HttpIO2 L_Http.

Lemma prefix_lower : forall p s, prefix_nocase p (map to_lower s) = option_map (map to_lower) (prefix_nocase p s).
Proof.
  induction p as [|a p IH]; intros [|c s]; cbn [prefix_nocase map]; try reflexivity.
  destruct (byte_case c) as (_ & _ & _ & _ & H & _). rewrite H. destruct (byte_eqb (to_upper a) (to_upper c)); auto.
Qed.
Lemma prefix_match : forall p q r, map to_lower q = map to_lower p -> prefix_nocase p (q ++ r) = Some r.
Proof.
  induction p as [|a p IH]; intros [|c q] r H; cbn [map] in H; try discriminate; [reflexivity|]. inversion H as [[H1 H2]].
  cbn [prefix_nocase app]. replace (byte_eqb (to_upper a) (to_upper c)) with true; [apply IH; assumption|].
  symmetry. apply byte_eqb_eq. destruct (byte_case a) as (_ & _ & _ & _ & HA & _), (byte_case c) as (_ & _ & _ & _ & HC & _). congruence.
Qed.
Lemma scheme_http : forall q r, map to_lower q = str "http://" -> url_scheme (q ++ r) = Some (Sch_http, r).
Proof. intros q r H. unfold url_scheme. rewrite prefix_match by (rewrite H; reflexivity). reflexivity. Qed.
Lemma no_prefix : forall r, prefix_nocase (str "http://") (str "https://" ++ r) = None /\
  prefix_nocase (str "http://") (str "unix://" ++ r) = None /\ prefix_nocase (str "https://") (str "unix://" ++ r) = None.
Proof. intro. repeat split; reflexivity. Qed.
Lemma scheme_https : forall q r, map to_lower q = str "https://" -> url_scheme (q ++ r) = Some (Sch_https, r).
Proof.
  intros q r H. unfold url_scheme. replace (prefix_nocase (str "http://") (q ++ r)) with (@None bytes).
  - rewrite prefix_match by (rewrite H; reflexivity). reflexivity.
  - pose proof (prefix_lower (str "http://") (q ++ r)) as HP. rewrite map_app, H in HP. destruct (no_prefix (map to_lower r)) as (N1 & N2 & N3). rewrite ?N1, ?N2, ?N3 in HP.
    destruct (prefix_nocase (str "http://") (q ++ r)); [discriminate HP|reflexivity].
Qed.
Lemma scheme_unix : forall q r, map to_lower q = str "unix://" -> url_scheme (q ++ r) = Some (Sch_unix, r).
Proof.
  intros q r H. unfold url_scheme. replace (prefix_nocase (str "http://") (q ++ r)) with (@None bytes).
  - replace (prefix_nocase (str "https://") (q ++ r)) with (@None bytes).
    + rewrite prefix_match by (rewrite H; reflexivity). reflexivity.
    + pose proof (prefix_lower (str "https://") (q ++ r)) as HP. rewrite map_app, H in HP. destruct (no_prefix (map to_lower r)) as (N1 & N2 & N3). rewrite ?N1, ?N2, ?N3 in HP.
      destruct (prefix_nocase (str "https://") (q ++ r)); [discriminate HP|reflexivity].
  - pose proof (prefix_lower (str "http://") (q ++ r)) as HP. rewrite map_app, H in HP. destruct (no_prefix (map to_lower r)) as (N1 & N2 & N3). rewrite ?N1, ?N2, ?N3 in HP.
    destruct (prefix_nocase (str "http://") (q ++ r)); [discriminate HP|reflexivity].
Qed.

Lemma find_char_range : forall c l i, find_char c l = Some i -> 0 <= i < blen l.
Proof.
  intros c l i H. apply find_char_some in H as (a & x & b & -> & _ & <- & _). rewrite blen_app, blen_cons.
  pose proof (blen_nonneg a). pose proof (blen_nonneg b). lia.
Qed.
Lemma zdrop_app : forall (a b : bytes), zdrop (blen a) (a ++ b) = b.
Proof. intros. unfold zdrop, blen. rewrite Nat2Z.id, skipn_app, skipn_all, Nat.sub_diag. reflexivity. Qed.
Lemma ztake_app : forall (a b : bytes), ztake (blen a) (a ++ b) = a.
Proof. intros. unfold ztake, blen. rewrite Nat2Z.id, firstn_app, firstn_all, Nat.sub_diag. cbn. apply app_nil_r. Qed.
Lemma zdrop_split : forall n (a : bytes), 0 <= n <= blen a -> exists u v, a = u ++ v /\ blen u = n /\ forall b, zdrop n (a ++ b) = v ++ b.
Proof.
  intros n a H. exists (ztake n a), (zdrop n a). split; [symmetry; apply ztake_zdrop|]. split; [rewrite blen_ztake; lia|].
  intro b. unfold zdrop, blen, bytes in *. rewrite skipn_app. replace (Z.to_nat n - Datatypes.length a)%nat with O by lia. reflexivity.
Qed.

Lemma app_split_len : forall (a b c d : bytes), a ++ b = c ++ d -> List.length a = List.length c -> a = c /\ b = d.
Proof.
  induction a as [|x a IH]; intros b [|y c] d E L; cbn in *; try discriminate; [auto|]. inversion E; subst. inversion L.
  destruct (IH b c d) as [-> ->]; auto.
Qed.

Lemma app_longer : forall (c a b : bytes) x d, a ++ b = c ++ x :: d -> (List.length c < List.length a)%nat -> exists e, a = c ++ x :: e.
Proof.
  induction c as [|y c IH]; intros [|z a] b x d E L; cbn in *; try lia; inversion E; subst; [eauto|].
  destruct (IH a b x d) as (e & ->); [assumption|lia|eauto].
Qed.

(** The heart of [url_parse]: what follows the scheme. *)
Definition colon_at (pos : Z) (r : bytes) (slash : Z) : option Z :=
  match find_char_from 58 pos r with Some c => if c <? slash then Some c else None | None => None end.
Definition bracket_pos (r : bytes) : Z := match find_char 93 r with Some i => i | None => 0 end.

Lemma colon_none : forall pos a b, 0 <= pos -> (forall u v, a = u ++ v -> blen u = pos -> find_char 58 v = None) ->
  colon_at pos (a ++ b) (blen a) = None.
Proof.
  intros pos a b HP HN. unfold colon_at, find_char_from. pose proof (blen_nonneg a).
  destruct (Z.le_gt_cases pos (blen a)) as [HL|HL].
  - destruct (zdrop_split pos a ltac:(lia)) as (u & v & E & EU & EZ). rewrite EZ, find_char_app_none by (eapply HN; eauto).
    destruct (find_char 58 b) as [j|] eqn:EJ; [|reflexivity]. apply find_char_range in EJ. cbn [option_map].
    replace (pos + (blen v + j) <? blen a) with false; [reflexivity|]. symmetry. apply Z.ltb_ge. subst a. rewrite blen_app. lia.
  - destruct (find_char 58 (zdrop pos (a ++ b))) as [j|] eqn:EJ; [|reflexivity]. apply find_char_range in EJ. cbn [option_map].
    replace (pos + j <? blen a) with false; [reflexivity|]. symmetry. apply Z.ltb_ge. lia.
Qed.
Lemma colon_some : forall pos h s b, 0 <= pos <= blen h -> (forall u v, h = u ++ v -> blen u = pos -> find_char 58 v = None) ->
  colon_at pos ((h ++ x3a :: s) ++ b) (blen (h ++ x3a :: s)) = Some (blen h).
Proof.
  intros pos h s b HP HN. unfold colon_at, find_char_from.
  destruct (zdrop_split pos h HP) as (u & v & E & EU & EZ). rewrite <- app_assoc, EZ. rewrite find_char_app_none by (eapply HN; eauto).
  cbn [app find_char]. change (is_char 58 x3a) with true. cbn [option_map]. rewrite Z.add_0_r.
  replace (pos + blen v) with (blen h) by (subst h; rewrite blen_app; lia).
  replace (blen h <? blen (h ++ x3a :: s)) with true; [reflexivity|]. symmetry. apply Z.ltb_lt. rewrite blen_app, blen_cons.
  pose proof (blen_nonneg s). lia.
Qed.

(** [url_parse] in one equation. *)
Definition with_scheme (sch : scheme) (host : bytes) (port : Z) (path : bytes) : res url :=
  match sch with
  | Sch_unix => match host with [] => Ok (mkUrl host 0 path false false) | _ => Err TypeError end
  | Sch_http => Ok (mkUrl host port path false false)
  | Sch_https => Ok (mkUrl host port path false true)
  end.
Definition def_port (sch : scheme) : Z := match sch with Sch_https => 443 | _ => 80 end.

Lemma parse_eq : forall s sch a b, url_scheme s = Some (sch, a ++ b) -> find_char 47 a = None -> (b = [] \/ exists p, b = x2f :: p) ->
  url_parse s = let path := match b with [] => str "/" | _ => b end in
    match colon_at (bracket_pos (a ++ b)) (a ++ b) (blen a) with
    | Some c => with_scheme sch (ztake c a) (read_dec_u16 (zdrop (c + 1) a)) path
    | None => with_scheme sch a (def_port sch) path
    end.
Proof.
  intros s sch a b HS HA HB. unfold url_parse. rewrite HS.
  assert (EF : match find_char 47 (a ++ b) with Some i => (zdrop i (a ++ b), i) | None => (str "/", blen (a ++ b)) end
               = (match b with [] => str "/" | _ => b end, blen a)).
  { rewrite find_char_app_none by assumption. destruct HB as [->|(p & ->)].
    - cbn [find_char option_map]. rewrite app_nil_r. reflexivity.
    - cbn [find_char]. change (is_char 47 x2f) with true. cbn [option_map]. rewrite Z.add_0_r, zdrop_app. reflexivity. }
  rewrite EF. cbv zeta. fold (bracket_pos (a ++ b)). unfold colon_at.
  destruct (find_char_from 58 (bracket_pos (a ++ b)) (a ++ b)) as [c|] eqn:EC.
  2:{ rewrite ztake_app. destruct sch; reflexivity. }
  destruct (Z.ltb_spec c (blen a)) as [HC|HC]; [|rewrite ztake_app; destruct sch; reflexivity].
  assert (H0 : 0 <= c).
  { unfold find_char_from in EC. destruct (find_char 58 _) as [j|] eqn:EJ; [|discriminate]. cbn in EC. inversion EC; subst.
    apply find_char_range in EJ. assert (0 <= bracket_pos (a ++ b)); [|lia].
    unfold bracket_pos. destruct (find_char 93 (a ++ b)) eqn:E9; [apply find_char_range in E9; lia|lia]. }
  replace (ztake c (a ++ b)) with (ztake c a).
  2:{ unfold ztake, blen, bytes in *. rewrite firstn_app. replace (Z.to_nat c - Datatypes.length a)%nat with O by lia. cbn. rewrite app_nil_r. reflexivity. }
  replace (ztake (blen a - (c + 1)) (zdrop (c + 1) (a ++ b))) with (zdrop (c + 1) a).
  2:{ destruct (zdrop_split (c + 1) a ltac:(lia)) as (u & v & E & EU & EZ). rewrite EZ. subst a.
      pose proof (EZ []) as EZ0. rewrite !app_nil_r in EZ0. rewrite EZ0. rewrite blen_app. replace (blen u + blen v - (c + 1)) with (blen v) by lia.
      rewrite ztake_app. reflexivity. }
  destruct sch; reflexivity.
Qed.

Lemma number_no : forall c s n, dec_number s n -> (c < 48 \/ 57 < c) -> find_char c s = None.
Proof.
  intros c s n H HC. destruct (dec_number_digits s n H) as (_ & ds & HF & _). clear n H.
  induction HF as [|x d s ds HX _ IH]; [reflexivity|]. cbn [find_char]. apply dec_val_range in HX as [HX _].
  unfold is_char. replace (b2z x =? c) with false by (symmetry; apply Z.eqb_neq; lia). rewrite IH. reflexivity.
Qed.

Lemma host_no : forall h, plain_host h -> find_char 47 h = None /\ find_char 58 h = None /\ find_char 93 h = None.
Proof.
  intros h H. repeat split; apply find_char_none_in; intros x HX E; destruct (H x HX) as (H1 & H2 & H3);
    [apply H1|apply H2|apply H3]; apply b2z_inj; rewrite E; reflexivity.
Qed.
Lemma find_char_suffix : forall c u v, find_char c (u ++ v) = None -> find_char c v = None.
Proof. intros c u v H. rewrite find_char_none_in in *. intros x HX. apply H. apply in_or_app. auto. Qed.

Lemma bracket_pos_nonneg : forall r, 0 <= bracket_pos r.
Proof. intro r. unfold bracket_pos. destruct (find_char 93 r) eqn:E; [apply find_char_range in E; lia|lia]. Qed.

Lemma parse_good : forall s sch host pt port pa path,
  url_scheme s = Some (sch, host ++ pt ++ pa) -> sch <> Sch_unix -> port_text (def_port sch) pt port -> path_text pa path ->
  (plain_host host /\ (pt = [] \/ ~ In x5d pa)) \/ bracket_host host ->
  url_parse s = with_scheme sch host port path.
Proof.
  intros s sch host pt port pa path HS HU HPT HPA HH.
  assert (HB : pa = [] \/ exists p, pa = x2f :: p) by (inversion HPA; eauto).
  assert (EP : match pa with [] => str "/" | _ => pa end = path) by (inversion HPA; reflexivity).
  assert (HPT47 : find_char 47 pt = None /\ find_char 93 pt = None).
  { inversion HPT as [|q m HN HR]; subst; [auto|]. cbn [find_char]. change (is_char 47 x3a) with false. change (is_char 93 x3a) with false. cbv iota.
    rewrite !(number_no _ q _ HN) by lia. auto. }
  destruct HPT47 as [HP47 HP93]. rewrite app_assoc in HS.
  assert (HH47 : find_char 47 host = None).
  { destruct HH as [[HH _]|(a & -> & HA)]; [apply host_no; assumption|]. apply find_char_none_in. intros x HX E.
    assert (x = x2f) by (apply b2z_inj; rewrite E; reflexivity). subst x. destruct HX as [HX|HX]; [discriminate|].
    apply in_app_or in HX as [HX|[HX|[]]]; [destruct (HA _ HX); congruence|discriminate]. }
  rewrite (parse_eq s sch (host ++ pt) pa HS ltac:(rewrite find_char_app_none, HP47 by assumption; reflexivity) HB). cbv zeta. rewrite EP.
  (* the position of the bracket *)
  assert (HPOS : (bracket_pos ((host ++ pt) ++ pa) <= blen host \/ pt = []) /\
                 forall u v, host = u ++ v -> blen u = bracket_pos ((host ++ pt) ++ pa) -> find_char 58 v = None).
  { destruct HH as [[HH HC]|(a & EH & HA)].
    - destruct (host_no host HH) as (_ & H58 & H93). split.
      + destruct HC as [HC|HC]; [auto|]. left. unfold bracket_pos.
        rewrite <- app_assoc, find_char_app_none, find_char_app_none by assumption.
        replace (find_char 93 pa) with (@None Z); [cbn; apply blen_nonneg|]. symmetry. apply find_char_none_in.
        intros x HX E. apply HC. replace x5d with x; [assumption|]. apply b2z_inj. assumption.
      + intros u v E _. subst host. eapply find_char_suffix; eauto.
    - assert (E93 : find_char 93 ((host ++ pt) ++ pa) = Some (1 + blen a)).
      { rewrite <- app_assoc. apply find_char_app_some. subst host. change (x5b :: a ++ [x5d]) with ((x5b :: a) ++ [x5d]).
        rewrite find_char_app_none.
        - cbn [find_char]. change (is_char 93 x5d) with true. cbn [option_map]. rewrite Z.add_0_r, blen_cons. reflexivity.
        - apply find_char_none_in. intros x HX E. assert (x = x5d) by (apply b2z_inj; assumption). subst x.
          destruct HX as [HX|HX]; [discriminate|]. destruct (HA _ HX); congruence. }
      unfold bracket_pos. rewrite E93. split.
      + left. subst host. change (x5b :: a ++ [x5d]) with ((x5b :: a) ++ [x5d]). rewrite blen_app, blen_cons. cbn. lia.
      + intros u v E EU. assert (v = [x5d]).
        { subst host. change (x5b :: a ++ [x5d]) with ((x5b :: a) ++ [x5d]) in E.
          assert (EL : List.length u = List.length (x5b :: a)) by (unfold blen, bytes in *; cbn [Datatypes.length]; lia).
          apply app_split_len in E as [_ E]; [congruence|symmetry; exact EL]. }
        subst v. reflexivity. }
  destruct HPOS as [HPOS HCOL]. pose proof (bracket_pos_nonneg ((host ++ pt) ++ pa)) as H0.
  inversion HPT as [EX EY|q m HN HR EX EY]; subst pt port.
  - rewrite app_nil_r in *. rewrite colon_none by assumption. reflexivity.
  - destruct HPOS as [HPOS|HPOS]; [|discriminate].
    rewrite (colon_some _ host q pa) by (auto; lia).
    rewrite ztake_app. replace (zdrop (blen host + 1) (host ++ x3a :: q)) with q.
    2:{ symmetry. change (x3a :: q) with ([x3a] ++ q). rewrite app_assoc. replace (blen host + 1) with (blen (host ++ [x3a])) by (rewrite blen_app; reflexivity).
        apply zdrop_app. }
    rewrite (read_dec_u16_number q m HN HR). reflexivity.
Qed.

Lemma read_u16_range : forall s, 0 <= read_dec_u16 s <= 65535.
Proof.
  intro s. unfold read_dec_u16. destruct (sign_of (skip is_space s)) as [neg s1].
  assert (HD : forall t a, 0 <= a -> 0 <= snd (digits_of dec_val 10 a t)).
  { induction t as [|c t IH]; intros a HA; cbn [digits_of]; [assumption|]. destruct (dec_val c) as [d|] eqn:E; [|assumption].
    apply dec_val_range in E. specialize (IH (a * 10 + d) ltac:(lia)). destruct (digits_of dec_val 10 (a * 10 + d) t). assumption. }
  specialize (HD s1 0 ltac:(lia)). destruct (digits_of dec_val 10 0 s1) as [n v]. cbn [snd] in HD.
  destruct (n =? 0); [lia|]. destruct (Z.ltb_spec 65535 v); [lia|]. destruct neg; [|lia].
  unfold u16, unsigned. pose proof (Z.mod_pos_bound (- v) (2 ^ 16) ltac:(lia)). lia.
Qed.

(** What [url_parse] finds, in a form that can be parsed again. *)
Lemma parse_again : forall a path c,
  find_char 47 a = None -> (exists p, path = x2f :: p) -> colon_at (bracket_pos (a ++ path)) (a ++ path) (blen a) = Some c ->
  0 <= c < blen a /\
  forall sch port, 0 <= port <= 65535 -> sch <> Sch_unix ->
    forall s', url_scheme s' = Some (sch, ztake c a ++ (if port =? def_port sch then [] else x3a :: dec port) ++ path) ->
    url_parse s' = with_scheme sch (ztake c a) port path.
Proof.
  intros a path c HA HP HC. unfold colon_at, find_char_from in HC.
  pose proof (bracket_pos_nonneg (a ++ path)) as H0. set (pos := bracket_pos (a ++ path)) in *.
  destruct (find_char 58 (zdrop pos (a ++ path))) as [j|] eqn:EJ; [|discriminate]. cbn [option_map] in HC.
  destruct (Z.ltb_spec (pos + j) (blen a)) as [HL|HL]; [|discriminate]. inversion HC; subst c; clear HC.
  pose proof (find_char_range _ _ _ EJ) as HJ. split; [lia|]. intros sch port HPORT HU s' HS.
  (* the host: u ++ v with no ':' in v, and ']' at its place *)
  destruct (zdrop_split pos a ltac:(lia)) as (u & w & EA & EU & EZ). rewrite EZ in EJ.
  apply find_char_some in EJ as (v & x & w' & EW & EX & EV & EN).
  assert (HV : exists w2, w = v ++ x :: w2).
  { assert (HLW : blen v < blen w) by (rewrite EA, blen_app in HL; lia).
    apply (app_longer v w path x w' EW). unfold blen, bytes in *. lia. }
  destruct HV as (w2 & ->). assert (EX2 : x = x3a) by (apply b2z_inj; unfold is_char in EX; apply Z.eqb_eq in EX; rewrite EX; reflexivity). subst x.
  assert (EH : ztake (pos + j) a = u ++ v).
  { subst a. rewrite app_assoc. replace (pos + j) with (blen (u ++ v)) by (rewrite blen_app; lia). apply ztake_app. }
  rewrite EH in *. set (pt := if port =? def_port sch then [] else x3a :: dec port) in *.
  assert (HPT : pt = [] /\ port = def_port sch \/ pt = x3a :: dec port).
  { unfold pt. destruct (Z.eqb_spec port (def_port sch)); auto. }
  pose proof (dec_is_number port ltac:(lia)) as HDEC.
  assert (HPT2 : find_char 47 pt = None /\ find_char 93 pt = None).
  { destruct HPT as [[-> _]| ->]; [auto|]. cbn [find_char]. change (is_char 47 x3a) with false. change (is_char 93 x3a) with false. cbv iota.
    rewrite !(number_no _ _ _ HDEC) by lia. auto. }
  destruct HPT2 as [HPT47 HPT93].
  assert (HUV47 : find_char 47 (u ++ v) = None).
  { subst a. rewrite find_char_none_in in HA |- *. intros y HY. apply HA. rewrite app_assoc. apply in_or_app. auto. }
  assert (HBP : bracket_pos (((u ++ v) ++ pt) ++ path) = pos).
  { unfold pos in EU |- *. unfold bracket_pos in EU |- *. rewrite EA in EU |- *. destruct (find_char 93 ((u ++ v ++ x3a :: w2) ++ path)) as [i|] eqn:E93.
    - assert (HI : i < blen (u ++ v)).
      { rewrite blen_app. (* the bracket is at pos = blen u, where v ++ ':' begins *)
        destruct v as [|y v]; [|rewrite blen_cons; pose proof (blen_nonneg v); lia]. exfalso.
        apply find_char_some in E93 as (b1 & y & b2 & E1 & E2 & E3 & E4).
        assert (HLL : List.length b1 = List.length u) by (unfold blen, bytes in *; lia).
        rewrite <- app_assoc in E1. apply app_split_len in E1 as [_ E1]; [|symmetry; exact HLL]. cbn [app] in E1. inversion E1; subst y.
        discriminate E2. }
      assert (E94 : find_char 93 (u ++ v) = Some i).
      { destruct (find_char 93 (u ++ v)) as [i'|] eqn:E5.
        - rewrite app_assoc, <- app_assoc in E93. rewrite (find_char_app_some _ _ _ _ E5) in E93. assumption.
        - rewrite app_assoc, <- app_assoc in E93. rewrite find_char_app_none in E93 by assumption.
          destruct (find_char 93 ((x3a :: w2) ++ path)) as [i'|] eqn:E6; [|discriminate]. apply find_char_range in E6. cbn [option_map] in E93.
          inversion E93. lia. }
      rewrite <- app_assoc. rewrite (find_char_app_some _ _ _ _ E94). reflexivity.
    - replace (find_char 93 (((u ++ v) ++ pt) ++ path)) with (@None Z); [reflexivity|]. symmetry. rewrite find_char_none_in in *.
      intros y HY. apply in_app_or in HY as [HY|HY].
      + apply in_app_or in HY as [HY|HY]; [|apply HPT93; assumption]. apply E93. apply in_app_or in HY.
        apply in_or_app. left. apply in_or_app. destruct HY; [auto|]. right. apply in_or_app. auto.
      + apply E93. apply in_or_app. auto. }
  assert (HCOL : forall u0 v0, u ++ v = u0 ++ v0 -> blen u0 = pos -> find_char 58 v0 = None).
  { intros u0 v0 E1 E2. assert (HLL : List.length u0 = List.length u) by (unfold blen, bytes in *; lia).
    assert (v0 = v); [|subst; assumption]. apply app_split_len in E1 as [_ E1]; [congruence|symmetry; exact HLL]. }
  rewrite app_assoc in HS. destruct HP as (p & ->).
  assert (HB : x2f :: p = [] \/ exists p0, x2f :: p = x2f :: p0) by eauto.
  rewrite (parse_eq s' sch ((u ++ v) ++ pt) (x2f :: p) HS ltac:(rewrite find_char_app_none, HPT47 by assumption; reflexivity) HB).
  cbv zeta iota. rewrite HBP. destruct HPT as [[-> EPT]| ->].
  - rewrite app_nil_r. rewrite colon_none by assumption. rewrite EPT. reflexivity.
  - rewrite (colon_some pos (u ++ v) (dec port) (x2f :: p)); [|split; [assumption|rewrite blen_app; pose proof (blen_nonneg v); lia]|assumption].
    rewrite ztake_app. replace (zdrop (blen (u ++ v) + 1) ((u ++ v) ++ x3a :: dec port)) with (dec port).
    2:{ symmetry. change (x3a :: dec port) with ([x3a] ++ dec port). rewrite app_assoc.
        replace (blen (u ++ v) + 1) with (blen ((u ++ v) ++ [x3a])) by (rewrite blen_app; reflexivity). apply zdrop_app. }
    rewrite (read_dec_u16_number _ _ HDEC) by lia. reflexivity.
Qed.
