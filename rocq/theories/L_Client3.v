(** Lemmas about histories of calls. *)
From Coq Require Import Lia Arith.
From Verif Require Import Base Value Text M_Marshal M_BinUnmarshal M_TreeBuilder M_Base64 M_Iso M_Url M_Http M_HttpIO M_HttpWriter M_Registry M_Server M_Client
  S_Http S_Registry S_Server S_Client L_Base L_Text L_UrlText L_Http L_HttpIO L_HttpIO2 L_HttpIO3 L_HttpIO4 L_HttpIO5 L_HttpWriter L_Registry L_Server L_Server2 L_Server3 L_Client L_Client2.

Lemma land_two : forall z, (Z.land z 2 =? 2) = Z.testbit z 1.
Proof.
  intro z. assert (E : Z.land z 2 = if Z.testbit z 1 then 2 else 0).
  { apply Z.bits_inj'. intros k HK. rewrite Z.land_spec. replace (Z.testbit 2 k) with (k =? 1).
    - destruct (Z.eqb_spec k 1) as [->|N]; [destruct (Z.testbit z 1); reflexivity|]. rewrite andb_false_r. destruct (Z.testbit z 1); [|symmetry; apply Z.bits_0].
      change 2 with (2 ^ 1). rewrite Z.pow2_bits_false; [reflexivity|lia].
    - change 2 with (2 ^ 1). rewrite Z.pow2_bits_eqb by lia. rewrite Z.eqb_sym. reflexivity. }
  rewrite E. destruct (Z.testbit z 1); reflexivity.
Qed.

Lemma read_response_held : forall ums keep c s c' fd x, read_response ums keep c s = (c', fd, x) -> l_held c <> Held_freed ->
  x <> Err (StreamError "Unknown ContentType") -> l_held c' <> Held_freed.
Proof.
  intros ums keep c s c' fd x H HH HX. unfold read_response in H.
  destruct (read_status _ s) as [s1 [protocol|e|]]; [|inversion H; subst; congruence..].
  destruct (read_header false [] s1) as [s2 [h|e|]]; [|inversion H; subst; congruence..].
  destruct (l_held c); [| |congruence];
    (destruct (response_um _) as [b|]; [|inversion H; subst; congruence];
     destruct (read_content _ _ _ _ _) as [r [h2|e|]]; [|inversion H; subst; discriminate..];
     destruct (um_finish (ums b) (r_sink r)) as [k [[]|e|]]; inversion H; subst; discriminate).
Qed.
Lemma reads_safe : forall ums keep, (forall b, um_safe (ums b)) -> forall ss c c' xs, reads ums keep c ss = (c', xs) -> l_held c <> Held_freed ->
  Forall (fun x => x <> Err (StreamError "Unknown ContentType")) xs -> Forall (fun x => x <> UB) xs /\ l_held c' <> Held_freed.
Proof.
  intros ums keep HU. induction ss as [|s ss IH]; intros c c' xs H HH HX; cbn [reads] in H; [inversion H; subst; split; [constructor|assumption]|].
  destruct (read_response ums keep c s) as [[c1 fd] x] eqn:E. destruct (reads ums keep c1 ss) as [c2 xs1] eqn:E2. inversion H; subst. inversion HX; subst.
  destruct (IH _ _ _ E2) as [A B]; [eapply read_response_held; eassumption|assumption|]. split; [|assumption]. constructor; [|assumption].
  apply read_response_any in E as (R1 & _); auto.
Qed.

Section Histories.
  Variable ums : bool -> unmarshaller.
  Variable mars : bool -> version -> marshaller.
  Variable cut : bytes -> list bytes.
  Variable callback : list (bytes * bytes).
  Hypothesis CUT : forall b, concat (cut b) = b.
  Notation call := (call ums mars cut callback).
  Notation after := (after ums mars cut callback).
  Notation call_cases := (call_cases ums mars cut callback CUT).

  (** What is sent. *)
  Lemma call_sent : forall p n name params p' es e, call p n name params = (p', es, e) -> no_nul name ->
    opened es <= 1 /\
    (sends es = [] \/ exists body out lost, written (mars (use_binary p) (a_version (x_conf p))) (call_calls name params) body /\
       sends es = [out] /\ client_head (call_client callback p (use_binary p)) (u32 (blen body)) ++ body = out ++ lost /\
       ((exists y, e = Returned (Ok y)) -> lost <> [] -> x_fd p' = None)) /\
    ((exists y, e = Returned (Ok y)) -> sends es <> []).
  Proof.
    intros p n name params p' es e H HN. apply call_cases in H. 
    destruct H as [x HX|es c HC|es rest body out lost HC HW HL|es rest body out lost e HC HW HL|es rest body out lost must c fd x HC HW HL HR HX|es rest body out lost must c fd y HC HW HL HM HR];
      rewrite ?(c_str_same _ HN) in *; try (apply connect_spec in HC as (S1 & S2 & S3 & _)); rewrite ?sends_app, ?opened_app; cbn [sends flat_map app].
    - split; [cbn; lia|]. split; [left; reflexivity|]. intros (y & E). inversion E. subst. destruct (HX y eq_refl).
    - split; [assumption|]. split; [left; assumption|]. intros (y & E). discriminate.
    - split; [cbn; lia|]. rewrite S1. split; [right; exists body, out, lost; repeat split; auto; intros (y & E); discriminate|discriminate].
    - split; [cbn; lia|]. rewrite S1. split; [right; exists body, out, lost; repeat split; auto; intros (y & E); discriminate|discriminate].
    - split; [destruct fd; cbn; lia|]. rewrite S1. split; [right; exists body, out, lost; repeat split; auto|destruct fd; discriminate].
      + destruct fd; reflexivity.
      + intros (y & E). inversion E. subst. destruct (HX y eq_refl).
    - split; [destruct fd; cbn; lia|]. rewrite S1. split; [right; exists body, out, lost; repeat split; auto|destruct fd; discriminate].
      + destruct fd; reflexivity.
      + intros _ HLO. cbn [x_fd]. destruct fd as [s|]; [|reflexivity]. destruct (read_response_fd _ _ _ _ _ _ _ HR ltac:(discriminate)) as (_ & A & _). cbn in A. destruct (HLO (HM A)).
  Qed.

  Ltac count := cbn [opened closed held_sockets filter zlen List.length option_map] in *; unfold opened, closed, held_sockets in *; cbn [filter app zlen List.length option_map] in *;
    repeat match goal with |- context [zlen (?x :: ?l)] => change (zlen (x :: l)) with 1 in * | |- context [zlen []] => change (zlen []) with 0 in * end.
  (** Sockets. *)
  Lemma call_sockets : forall p n name params p' es e, call p n name params = (p', es, e) ->
    held_sockets (x_fd p) + opened es = held_sockets (x_fd p') + closed es /\
    (sends es <> [] -> x_fd p' <> None -> e = Waiting \/ a_keep (x_conf p) = true /\ exists y, e = Returned (Ok y)).
  Proof.
    intros p n name params p' es e H. apply call_cases in H.
    destruct H as [x HX|es c HC|es rest body out lost HC HW HL|es rest body out lost e HC HW HL|es rest body out lost must c fd x HC HW HL HR HX|es rest body out lost must c fd y HC HW HL HM HR];
      try (pose proof HC as HC2; apply connect_spec in HC2 as (S1 & S2 & S3 & _)); rewrite ?opened_app, ?closed_app; cbn [with_fd no_once x_fd option_map].
    - split; [count; lia|]. cbn. congruence.
    - split; [exact S2|congruence].
    - split; [count; lia|]. auto.
    - split; [count; lia|congruence].
    - split; [destruct fd; count; lia|]. intros _ HF. right. destruct (read_response_fd _ _ _ _ _ _ _ HR) as (A & _ & y & B); [destruct fd; cbn in HF; congruence|]. split; eauto. exists y. congruence.
    - split; [destruct fd; count; lia|]. intros _ HF. right. destruct (read_response_fd _ _ _ _ _ _ _ HR) as (A & _ & z & B); [destruct fd; cbn in HF; congruence|]. split; eauto.
  Qed.

  (** What does not change, or only with a response. *)
  Lemma call_keeps : forall p n name params p' es e, call p n name params = (p', es, e) ->
    x_url p' = x_url p /\ a_mode (x_conf p') = a_mode (x_conf p) /\ a_http10 (x_conf p') = a_http10 (x_conf p) /\ a_keep (x_conf p') = a_keep (x_conf p) /\
    x_headers p' = x_headers p /\ x_once p' = [] /\ ((forall y, e <> Returned (Ok y)) -> x_protocols p' = x_protocols p /\ x_conf p' = x_conf p).
  Proof.
    intros p n name params p' es e H. apply call_cases in H. destruct H; cbn [no_once with_fd with_version x_url x_conf x_headers x_once x_protocols a_mode a_http10 a_keep]; do 6 (split; [reflexivity|]); intro HX; auto.
    destruct (HX y eq_refl).
  Qed.

  (** An answer taken from a connection without stale bytes. *)
  Definition clean (p : proxy) : Prop := x_fd p = None \/ x_fd p = Some [].
  Lemma call_own : forall p n name params p' es e ex, call p n name params = (p', es, e) -> clean p ->
    ((exists y, e = Returned (Ok y)) -> answered_by ums n ex) ->
    clean p' /\ forall y, e = Returned (Ok y) -> exists t, y = (map as_read (p_fields (e_response ex)), t) /\ tb_data t = e_value ex /\
      a_version (x_conf p') = e_version ex /\ advertises (e_response ex) (true, false) (formats_of (x_protocols p')) /\
      (x_fd p' <> None -> stays_open (e_response ex)).
  Proof.
    intros p n name params p' es e ex H HC HA. apply call_cases in H.
    assert (CR : forall es rest, connect_socket (a_keep (x_conf p)) n (x_fd p) = (Some rest, es, Ok tt) -> rest = []).
    { intros es0 rest E. apply connect_spec in E as (_ & _ & _ & [(_ & r & E1 & [(E2 & _)|E2])|(c & X & _)]); [|congruence|discriminate].
      inversion E1; subst. destruct HC as [HC|HC]; congruence. }
    destruct H as [x HX|es c HS|es rest body out lost HS HW HL|es rest body out lost e HS HW HL|es rest body out lost must c fd x HS HW HL HR HX|es rest body out lost must c fd y HS HW HL HM HR].
    - split; [exact HC|]. intros y E. inversion E. subst. destruct (HX y eq_refl).
    - split; [left; reflexivity|discriminate].
    - split; [right; cbn; rewrite (CR _ _ HS); reflexivity|discriminate].
    - split; [left; reflexivity|discriminate].
    - split.
      + left. cbn. destruct fd as [s|]; [|reflexivity]. destruct (read_response_fd _ _ _ _ _ _ _ HR ltac:(discriminate)) as (_ & _ & z & B). destruct (HX z B).
      + intros y E. inversion E. subst. destruct (HX y eq_refl).
    - destruct (HA ltac:(eauto)) as (A1 & A2 & A3 & A4). rewrite (CR _ _ HS) in HR. unfold arrived in HR. cbn [app] in HR.
      destruct (read_response_good ums (a_keep (x_conf p)) (mkCl P_XML (mkVer 2 1) must Held_none) _ _ _ _ _ _ _ (M_HttpIO.sees (n_arrives n)) A1 A2 A3 ltac:(discriminate) A4)
        as (c' & fd' & t & R1 & R2 & R3 & R4 & R5 & R6 & R7 & R8 & R9).
      rewrite R1 in HR. inversion HR; subst. split.
      + unfold clean. cbn. destruct R8 as [->|(v & ->)]; [left|right]; reflexivity.
      + intros y E. inversion E. subst. exists t. repeat split; auto. intro HF. apply R9. cbn in HF. destruct fd; cbn in HF; congruence.
  Qed.

  (** Nothing undefined, whatever arrives. *)
  Lemma call_defined : forall p n name params p' es e, call p n name params = (p', es, e) ->
    (forall b, um_safe (ums b)) -> (forall b v, ma_safe (mars b v)) -> Forall tame params ->
    e <> Returned UB /\ forall h t, e = Returned (Ok (h, t)) -> tb_data t <> UB.
  Proof.
    intros p n name params p' es e H HU HM HT. pose proof (call_cases _ _ _ _ _ _ _ H) as HC.
    destruct HC as [x HX|es c HC|es rest body out lost HC HW HL|es rest body out lost e HC HW HL|es rest body out lost must c fd x HC HW HL HR HX|es rest body out lost must c fd y HC HW HL HMU HR];
      try (split; discriminate).
    - split; [|intros h t E; inversion E; subst; destruct (HX _ eq_refl)]. intro E. inversion E; subst. clear HX E. unfold M_Client.call in H. destruct (3 <? _); [discriminate|].
      assert (HCALM : Forall calm (call_calls (c_str name) params)).
      { clear - HT. constructor; [exact I|]. induction HT as [|v l HV HT IH]; cbn [flat_map]; [constructor|]. apply Forall_app. split; [apply feed_calm; assumption|apply IH]. }
      pose proof (run_defined _ (HM (use_binary p) (a_version (x_conf p))) (call_calls (c_str name) params) (ma_init _) HCALM) as HD.
      destruct (ma_run _ _ _) as [[o s] [[ex|]|]]; [discriminate| |].
      + destruct (HD _ eq_refl) as (ex & X & _). discriminate.
      + destruct (connect_socket _ _ _) as [[fd es1] x1] eqn:EC. destruct x1 as [[]|ex|]; [|discriminate|].
        * destruct (send_pieces _ _) as [b e1]. destruct e1 as [|ex|]; try discriminate.
          -- destruct (read_response _ _ _ _) as [[c0 fd2] x]. destruct x; inversion H; destruct es1; discriminate.
          -- destruct ex; try discriminate. destruct (read_response _ _ _ _) as [[c0 fd2] x]. destruct x; inversion H; destruct es1; discriminate.
        * apply connect_spec in EC as (_ & _ & _ & [(X & _)|(c0 & X & _)]); discriminate.
    - apply read_response_any in HR as (R1 & _ & _ & R2 & _); [|assumption|discriminate]. split; [congruence|]. intros h t E. inversion E; subst. apply (R2 h t). reflexivity.
    - apply read_response_any in HR as (R1 & _ & _ & R2 & _); [|assumption|discriminate]. split; [congruence|]. intros h t E. inversion E; subst. apply (R2 h t). reflexivity.
  Qed.

  (** A response cut off. *)
  Lemma call_cut : forall p n name params p' es e r binary ver x, call p n name params = (p', es, e) -> clean p ->
    response_ok r -> response_type r binary -> replies (ums binary) (p_body r) ver x -> cut_response r (pending (n_arrives n)) ->
    forall y, e <> Returned (Ok y).
  Proof.
    intros p n name params p' es e r binary ver x H HC HO HT HR HCUT y. apply call_cases in H. intro E. subst e.
    inversion H as [x0 HX| | | |es0 rest body out lost must c fd x0 HS HW HL HRR HX|es0 rest body out lost must c fd y0 HS HW HL HM HRR]; subst.
    - destruct (HX y eq_refl).
    - destruct (HX y eq_refl).
    - apply connect_spec in HS as (_ & _ & _ & [(_ & r0 & E1 & [(E2 & _)|E2])|(c0 & X & _)]); [| |discriminate].
      + assert (r0 = []) by (destruct HC as [HC|HC]; congruence). inversion E1; subst.
        unfold arrived in HRR. cbn [app] in HRR.
        destruct (read_response_cut ums (a_keep (x_conf p)) (mkCl P_XML (mkVer 2 1) must Held_none) r binary ver x _ (M_HttpIO.sees (n_arrives n)) (fin (n_arrives n)) HO HT HR ltac:(discriminate) HCUT) as (c' & code & X). congruence.
      + inversion E1; subst. unfold arrived in HRR. cbn [app] in HRR.
        destruct (read_response_cut ums (a_keep (x_conf p)) (mkCl P_XML (mkVer 2 1) must Held_none) r binary ver x _ (M_HttpIO.sees (n_arrives n)) (fin (n_arrives n)) HO HT HR ltac:(discriminate) HCUT) as (c' & code & X). congruence.
  Qed.

  Lemma after_app : forall a b p, after p (a ++ b) = let '(p1, l1) := after p a in let '(p2, l2) := after p1 b in (p2, l1 ++ l2).
  Proof.
    induction a as [|d a IH]; intros b p; [cbn; destruct (after p b); reflexivity|].
    destruct d; cbn [app S_Client.after]; rewrite ?IH; try reflexivity.
    destruct (call p n name params) as [[p1 es] e]. rewrite IH. destruct (after p1 a) as [p2 l1]. destruct (after p2 b). reflexivity.
  Qed.
  Definition calls (ds : list deed) : nat := List.length (filter (fun d => match d with Do_call _ _ _ => true | _ => false end) ds).
  Lemma after_calls : forall ds p, List.length (snd (after p ds)) = calls ds.
  Proof.
    induction ds as [|d ds IH]; intro p; [reflexivity|]. destruct d; cbn [S_Client.after]; try apply IH.
    destruct (call p n name params) as [[p1 es] e]. specialize (IH p1). destruct (after p1 ds). cbn in *. rewrite IH. reflexivity.
  Qed.
  Lemma answered_app : forall a outs1 b outs2 exs, answered ums (a ++ b) (outs1 ++ outs2) exs -> List.length outs1 = calls a ->
    exists exs1 exs2, exs = exs1 ++ exs2 /\ List.length exs1 = List.length outs1 /\ answered ums a outs1 exs1 /\ answered ums b outs2 exs2.
  Proof.
    induction a as [|d a IH]; intros outs1 b outs2 exs H HL.
    - destruct outs1; [|discriminate]. exists [], exs. repeat split; auto. constructor.
    - destruct d; cbn [app] in H; unfold calls in HL; cbn [filter] in HL.
      + destruct outs1 as [|o outs1]; [discriminate|]. cbn [List.length] in HL. cbn [app] in H. inversion H; subst.
        match goal with X : answered _ (a ++ b) _ ?exs0 |- _ => destruct (IH outs1 b outs2 exs0 X) as (e1 & e2 & -> & A0 & A1 & A2); [unfold calls; congruence|] end.
        exists (ex :: e1), e2. cbn [List.length]. repeat split; auto. constructor; auto.
      + inversion H; subst. destruct (IH outs1 b outs2 exs ltac:(assumption) HL) as (e1 & e2 & -> & A0 & A1 & A2). exists e1, e2. repeat split; auto. constructor. assumption.
      + inversion H; subst. destruct (IH outs1 b outs2 exs ltac:(assumption) HL) as (e1 & e2 & -> & A0 & A1 & A2). exists e1, e2. repeat split; auto. constructor. assumption.
      + inversion H; subst. destruct (IH outs1 b outs2 exs ltac:(assumption) HL) as (e1 & e2 & -> & A0 & A1 & A2). exists e1, e2. repeat split; auto. constructor. assumption.
  Qed.

  (** The proxy after a history. *)
  Lemma after_keeps : forall ds p p' outs, after p ds = (p', outs) -> x_url p' = x_url p /\ a_mode (x_conf p') = a_mode (x_conf p) /\
    a_http10 (x_conf p') = a_http10 (x_conf p) /\ a_keep (x_conf p') = a_keep (x_conf p).
  Proof.
    induction ds as [|d ds IH]; intros p p' outs H; cbn [S_Client.after] in H; [inversion H; subst; auto|].
    destruct d; try (apply IH in H; exact H). destruct (call p n name params) as [[p1 es] e] eqn:E. destruct (after p1 ds) as [p2 l] eqn:E2.
    inversion H; subst. apply IH in E2 as (A & B & C & D). apply call_keeps in E as (A1 & B1 & C1 & D1 & _). repeat split; congruence.
  Qed.
  Lemma after_headers : forall ds u c p' outs hs once, after (new_proxy u c) ds = (p', outs) -> added_headers (rev ds) hs once -> x_headers p' = hs /\ x_once p' = once.
  Proof.
    induction ds as [|d ds IH] using rev_ind; intros u c p' outs hs once H HA.
    - cbn in *. inversion HA; subst. inversion H; subst. auto.
    - rewrite after_app in H. destruct (after (new_proxy u c) ds) as [p1 l1] eqn:E. rewrite rev_app_distr in HA. cbn [rev app] in HA.
      destruct d; cbn [S_Client.after] in H; inversion HA; subst; try (match goal with X : added_headers (rev ds) ?h ?o |- _ => destruct (IH _ _ _ _ _ _ E X) end).
      + destruct (call p1 n name params) as [[p2 es] e] eqn:EC. inversion H; subst. apply call_keeps in EC as (_ & _ & _ & _ & A & B & _). split; congruence.
      + inversion H; subst. split; reflexivity.
      + inversion H; subst. split; reflexivity.
      + inversion H; subst. split; reflexivity.
  Qed.
  Lemma after_own : forall ds p p' outs exs, after p ds = (p', outs) -> clean p -> answered ums ds outs exs ->
    clean p' /\ Forall2 (fun o ex => forall h t, snd o = Returned (Ok (h, t)) -> h = map as_read (p_fields (e_response ex)) /\ tb_data t = e_value ex) outs exs.
  Proof.
    induction ds as [|d ds IH]; intros p p' outs exs H HC HA; cbn [S_Client.after] in H.
    - inversion H; subst. inversion HA; subst. split; [assumption|constructor].
    - destruct d.
      + destruct (call p n name params) as [[p1 es] e] eqn:E. destruct (after p1 ds) as [p2 l] eqn:E2. inversion H; subst. inversion HA; subst.
        match goal with X : _ -> answered_by ums n ?x |- _ => destruct (call_own _ _ _ _ _ _ _ x E HC X) as [C1 C2] end.
        match goal with X : answered ums ds l ?x |- _ => destruct (IH _ _ _ x E2 C1 X) as [C3 C4] end. split; [assumption|]. constructor; [|assumption].
        intros h t EQ. destruct (C2 _ EQ) as (t' & E3 & E4 & _). inversion E3; subst. auto.
      + inversion HA; subst. apply (IH _ _ _ _ H HC). assumption.
      + inversion HA; subst. apply (IH _ _ _ _ H HC). assumption.
      + inversion HA; subst. apply (IH _ _ _ _ H HC). assumption.
  Qed.
  Lemma first_value_unique : forall name fs v w, first_value name fs v -> first_value name fs w -> v = w.
  Proof. intros name fs v w A B. apply get_read in A. apply get_read in B. congruence. Qed.
  Lemma combine_snoc : forall A B (l : list A) (m : list B) a b, List.length l = List.length m -> combine (l ++ [a]) (m ++ [b]) = combine l m ++ [(a, b)].
  Proof. induction l; intros [|y m] x z E; cbn in *; try discriminate; [reflexivity|]. f_equal. apply IHl. congruence. Qed.
  Lemma after_found : forall ds u c p' outs exs b, after (new_proxy u c) ds = (p', outs) -> answered ums ds outs exs -> found_binary (combine outs exs) b ->
    snd (formats_of (x_protocols p')) = b.
  Proof.
    induction ds as [|d ds IH] using rev_ind; intros u c p' outs exs b H HA HB.
    - cbn in *. inversion H; subst. inversion HA; subst. cbn in HB. inversion HB; subst; [reflexivity|destruct l; discriminate|destruct l; discriminate].
    - rewrite after_app in H. destruct (after (new_proxy u c) ds) as [p1 l1] eqn:E. pose proof (after_calls ds (new_proxy u c)) as HN. rewrite E in HN. cbn [snd] in HN.
      destruct d; cbn [S_Client.after] in H.
      + destruct (call p1 n name params) as [[p2 es] e] eqn:EC. inversion H; subst. destruct (answered_app _ _ _ _ _ HA HN) as (x1 & x2 & -> & A0 & A1 & A2).
        inversion A2; subst. match goal with X : answered ums [] [] ?z |- _ => inversion X; subst end.
        destruct (after_own _ _ _ _ _ E (or_introl eq_refl) A1) as [HCL _]. destruct (call_own _ _ _ _ _ _ _ ex EC HCL ltac:(assumption)) as [_ HO].
        rewrite combine_snoc in HB by congruence. inversion HB.
        * destruct (combine l1 x1); discriminate.
        * match goal with X : _ ++ _ = combine l1 x1 ++ _ |- _ => apply app_inj_tail in X as [-> X]; inversion X; subst end.
          destruct (HO _ eq_refl) as (t & -> & _ & _ & HAD & _). destruct HAD as [(HN1 & EF)|(a & HA1 & HF & HG)].
          -- rewrite EF. cbn. destruct b; [|reflexivity]. match goal with X : true = true <-> _ |- _ => destruct X as [X _]; destruct (X eq_refl) as (a & HF & _) end.
             apply get_read in HF. rewrite (get_read_none _ _ HN1) in HF. discriminate.
          -- destruct (snd (formats_of (x_protocols p'))), b; try reflexivity.
             ++ match goal with X : false = true <-> _ |- _ => symmetry; apply X end. exists a. split; [assumption|apply HG; reflexivity].
             ++ match goal with X : true = true <-> _ |- _ => destruct X as [X _]; destruct (X eq_refl) as (a' & HA' & HO') end.
                assert (a' = a) by (eapply first_value_unique; eassumption). subst a'. apply HG. assumption.
        * match goal with X : _ ++ _ = combine l1 x1 ++ _ |- _ => apply app_inj_tail in X as [-> X]; inversion X; subst end.
          rewrite <- (IH _ _ _ _ _ b E A1 ltac:(assumption)). apply call_keeps in EC as (_ & _ & _ & _ & _ & _ & EC). destruct (EC ltac:(assumption)) as [-> _]. reflexivity.
      + rewrite app_nil_r in H. inversion H; subst. rewrite <- (app_nil_r outs) in HA. destruct (answered_app _ _ _ _ _ HA HN) as (x1 & x2 & -> & A0 & A1 & A2).
        inversion A2; subst. match goal with X : answered ums [] [] ?z |- _ => inversion X; subst end. rewrite app_nil_r in *. exact (IH _ _ _ _ _ _ E A1 HB).
      + rewrite app_nil_r in H. inversion H; subst. rewrite <- (app_nil_r outs) in HA. destruct (answered_app _ _ _ _ _ HA HN) as (x1 & x2 & -> & A0 & A1 & A2).
        inversion A2; subst. match goal with X : answered ums [] [] ?z |- _ => inversion X; subst end. rewrite app_nil_r in *. exact (IH _ _ _ _ _ _ E A1 HB).
      + rewrite app_nil_r in H. inversion H; subst. rewrite <- (app_nil_r outs) in HA. destruct (answered_app _ _ _ _ _ HA HN) as (x1 & x2 & -> & A0 & A1 & A2).
        inversion A2; subst. match goal with X : answered ums [] [] ?z |- _ => inversion X; subst end. rewrite app_nil_r in *. exact (IH _ _ _ _ _ _ E A1 HB).
  Qed.
End Histories.
