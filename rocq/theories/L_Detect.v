(** Lemmas about the choice of the format (M_Detect.v). *)
From Coq Require Import Lia.
From Verif Require Import Base Value Text M_Marshal M_BinUnmarshal M_TreeBuilder M_Base64 M_Iso M_Url M_Registry M_Xml M_XmlUm M_Detect
  S_Value S_Events S_Iso S_Xml S_Wire S_Http S_XmlUm S_Detect L_Base L_XmlUm.

Definition starts_binary (data : bytes) : bool := match data with a :: b :: _ => (b2z a =? 202) && (b2z b =? 17) | _ => false end.

Section Lemmas.
  Variable P : parser.
  Variable strtod : bytes -> option Z.
  Variable erange : bool.
  Variable val : option mktime_t.

  Lemma takes_bin : forall want pieces u t,
    bind (d_takes P strtod erange val want (D_bin u t) pieces) (d_finish P strtod erange val) =
    match unmarshall_all tb (tb_step val) want u t pieces with
    | (u, t, None) => bind (unm_finish u) (fun _ => Ok t)
    | (_, _, Some (Exn e)) => Err e
    | (_, _, Some Undef) => UB
    end.
  Proof.
    intros want. induction pieces as [|d pieces IH]; intros u t; [reflexivity|]. cbn [d_takes d_take unmarshall_all].
    destruct (unmarshall tb (tb_step val) want u t d) as [[u' t'] [[e|]|]]; cbn [bind]; [reflexivity|reflexivity|apply IH].
  Qed.
  Lemma takes_xml : forall want pieces p u t,
    bind (d_takes P strtod erange val want (D_xml p u t) pieces) (d_finish P strtod erange val) = um_got (xml_um P strtod erange val want) (p, u, t) pieces.
  Proof.
    intros want. unfold um_got. induction pieces as [|d pieces IH]; intros p u t.
    - cbn [d_takes bind d_finish um_all xml_um um_finish um_builder]. destruct (ps_take P p []) as [[p1 b1] c1].
      destruct (x_finish (tb_step val) strtod erange u t b1 c1) as [[u1 t1] [[e|]|]]; reflexivity.
    - cbn [d_takes d_take um_all xml_um um_take]. destruct (ps_take P p d) as [[p1 b1] c1].
      destruct (x_unmarshall (tb_step val) strtod erange want u t d b1 c1) as [[u1 t1] [[e|]|]]; cbn [bind]; [reflexivity|reflexivity|apply IH].
  Qed.

  Lemma auto_long : forall first rest, 4 <= blen first ->
    auto_read P strtod erange val TYPE_ANY first rest =
    if starts_binary first then received val TYPE_ANY (first :: rest)
    else um_got (xml_um P strtod erange val TYPE_ANY) (um_init (xml_um P strtod erange val TYPE_ANY)) (first :: rest).
  Proof.
    intros first rest H. unfold auto_read, detect. replace (blen first <? 4) with false by (symmetry; apply Z.ltb_ge; lia). cbn [bind].
    destruct first as [|a [|b first]]; [unfold blen in H; cbn in H; lia|unfold blen in H; cbn in H; lia|]. cbn [starts_binary].
    destruct ((b2z a =? 202) && (b2z b =? 17)).
    - unfold d_bin, received. cbn [unmarshall_all]. destruct (unmarshall tb (tb_step val) TYPE_ANY unm_init tb_init (a :: b :: first)) as [[u t] [[e|]|]]; cbn [bind]; [reflexivity|reflexivity|].
      apply takes_bin.
    - unfold d_xml, um_got. cbn [um_all xml_um um_take um_init]. destruct (ps_take P (ps_init P) (a :: b :: first)) as [[p b1] c1].
      destruct (x_unmarshall (tb_step val) strtod erange TYPE_ANY xun_init tb_init (a :: b :: first) b1 c1) as [[u t] [[e|]|]]; cbn [bind]; [reflexivity|reflexivity|].
      fold (um_got (xml_um P strtod erange val TYPE_ANY) (p, u, t) rest). apply takes_xml.
  Qed.
End Lemmas.

(** XML documents do not begin like binary messages. *)
Lemma xml_got : forall P strtod val text doc pieces want B (k : tb -> res B) x, faithful P -> xml_doc text = Some doc -> arrives text pieces -> x <> UB ->
  (forall xpieces last, delivery text xpieces last -> exists t, xml_received val strtod false want xpieces last = Ok t /\ k t = x) ->
  bind (um_got (xml_um P strtod false val want) (um_init (xml_um P strtod false val want)) pieces) k = x.
Proof.
  intros P strtod val text doc pieces want B k x HF HD HA HX H.
  destruct (um_received P strtod val want _ _ HF HD pieces HA) as (xp & last & s & _ & DL & HU).
  destruct (H _ _ DL) as (t & E & K). unfold xml_received in E. destruct (x_receive (tb_step val) strtod false want tb_init xp last) as [[u t'] [[e|]|]] eqn:EX; inversion E; subst.
  destruct (HU _ _ eq_refl) as (U1 & p & U2). unfold um_got. rewrite U1, U2. reflexivity.
Qed.
