(** Replacing the builder by one it simulates: [h] maps the states. *)
From Coq Require Import Lia.
From Verif Require Import Base Value M_Marshal M_BinUnmarshal S_Events.

Section Morph.
  Variables B1 B2 : Type.
  Variable s1 : B1 -> event -> B1 * option fail.
  Variable s2 : B2 -> event -> B2 * option fail.
  Variable h : B1 -> B2.
  Hypothesis H : forall b e, s2 (h b) e = (h (fst (s1 b e)), snd (s1 b e)).

  Definition mbres (r : bres B1) : bres B2 :=
    match r with
    | Next _ c b w f => Next _ c (h b) w f
    | Stop _ => Stop _
    | Bad _ c b f => Bad _ c (h b) f
    end.

  Definition m3 {A C} (r : A * B1 * C) : A * B2 * C := let '(a, b, c) := r in (a, h b, c).

  Lemma morph_emit : forall c b e, emit B2 s2 c (h b) e = m3 (emit B1 s1 c b e).
  Proof.
    intros c b e. unfold emit. rewrite H.
    destruct (c_fault c =? 0).
    - destruct (s1 b e); reflexivity.
    - destruct e; cbn [fault_step]; try reflexivity.
      + destruct (c_fault c =? 1); reflexivity.
      + destruct (c_fault c =? 2); [|reflexivity]. rewrite H.
        destruct (s1 b _) as [b' [f|]]; reflexivity.
  Qed.

  Lemma morph_scalar : forall c b e, scalar B2 s2 c (h b) e = mbres (scalar B1 s1 c b e).
  Proof.
    intros. unfold scalar. rewrite morph_emit. destruct (emit B1 s1 c b e) as [[? ?] [?|]]; reflexivity.
  Qed.

  Lemma morph_container : forall k c b d,
    container_arm B2 s2 k c (h b) d = mbres (container_arm B1 s1 k c b d).
  Proof.
    intros. unfold container_arm. cbv zeta.
    destruct (_ <? _); [reflexivity|]. destruct (negb _); [reflexivity|].
    destruct (_ <=? _); [reflexivity|]. rewrite morph_emit.
    destruct (emit B1 s1 c b _) as [[c1 b1] [?|]]; [reflexivity|]. cbn [m3].
    destruct (negb _); [reflexivity|]. rewrite morph_emit.
    destruct (emit B1 s1 c1 b1 _) as [[c2 b2] [?|]]; reflexivity.
  Qed.

  Lemma morph_value_type : forall known c b t,
    value_type_arm B2 s2 known c (h b) t = mbres (value_type_arm B1 s1 known c b t).
  Proof.
    intros. unfold value_type_arm. cbv zeta.
    repeat match goal with
    | |- (if ?x then _ else _) = _ => destruct x
    | |- match ?x with Some _ => _ | None => _ end = _ => destruct x
    end; try reflexivity; apply morph_scalar.
  Qed.

  Lemma morph_body : forall req known c b w d,
    body B2 s2 req known c (h b) w d = mbres (body B1 s1 req known c b w d).
  Proof.
    intros. unfold body. cbv zeta.
    destruct (c_state c);
      repeat match goal with
      | |- (if ?x then _ else _) = _ => destruct x
      | |- match ?x with Some _ => _ | None => _ end = _ => destruct x
      | |- match ?x with [] => _ | _ :: _ => _ end = _ => destruct x
      | |- match emit B2 _ _ _ _ with _ => _ end = _ =>
          rewrite morph_emit;
          match goal with |- context [emit B1 s1 ?c ?b ?e] => destruct (emit B1 s1 c b e) as [[? ?] [?|]] end
      end; try reflexivity;
      try apply morph_scalar; try apply morph_value_type; try apply morph_container;
      unfold length_arm; cbv zeta; destruct (_ <=? _); reflexivity.
  Qed.

  Lemma morph_dec : forall stk b, dec_members B2 s2 stk (h b) = m3 (dec_members B1 s1 stk b).
  Proof.
    induction stk as [|[n k] r IH]; intro b; cbn [dec_members]; [reflexivity|]. cbv zeta.
    destruct (negb _); [reflexivity|]. rewrite H. destruct (s1 b _) as [b' [f|]]; cbn [fst snd]; [reflexivity|].
    apply IH.
  Qed.

  Lemma morph_decrement : forall fin c b, decrement B2 s2 fin c (h b) = m3 (decrement B1 s1 fin c b).
  Proof.
    intros [|] c b; cbn [decrement]; [|reflexivity]. rewrite morph_dec.
    destruct (dec_members B1 s1 (c_stack c) b) as [[? ?] ?]; reflexivity.
  Qed.

  Lemma morph_run : forall fuel req known u b inp,
    run B2 s2 fuel req known u (h b) inp =
    let '(u', b', r, e) := run B1 s1 fuel req known u b inp in (u', h b', r, e).
  Proof.
    induction fuel as [|fuel IH]; intros req known u b inp; cbn [run];
      (destruct (u_wanted u <=? _); [|reflexivity]); [reflexivity|].
    rewrite morph_body. destruct (body B1 s1 req known (u_core u) b (u_wanted u) _) as [c' b' w fin| |];
      cbn [mbres]; try reflexivity.
    rewrite morph_decrement. destruct (decrement B1 s1 fin c' b') as [[c2 b2] [f|]]; cbn [m3]; [reflexivity|].
    apply IH.
  Qed.

  Lemma morph_unmarshall : forall req u b data,
    unmarshall B2 s2 req u (h b) data = m3 (unmarshall B1 s1 req u b data).
  Proof.
    intros. unfold unmarshall. destruct (driver_init u data) as [u0 inp]. rewrite morph_run.
    destruct (run B1 s1 _ req false u0 b inp) as [[[u1 b1] r] e]. reflexivity.
  Qed.

  Lemma morph_unmarshall_all : forall req pieces u b,
    unmarshall_all B2 s2 req u (h b) pieces = m3 (unmarshall_all B1 s1 req u b pieces).
  Proof.
    induction pieces as [|p ps IH]; intros u b; cbn [unmarshall_all]; [reflexivity|].
    rewrite morph_unmarshall. destruct (unmarshall B1 s1 req u b p) as [[u1 b1] [f|]]; cbn [m3]; [reflexivity|].
    apply IH.
  Qed.
End Morph.

(** Keeping the trace does not change anything else. *)
Lemma traced_fst : forall B (bstep : B -> event -> B * option fail) b e,
  bstep (fst b) e = (fst (fst (traced bstep b e)), snd (traced bstep b e)).
Proof. intros. unfold traced. destruct (bstep (fst b) e); reflexivity. Qed.

Lemma traced_unmarshall_all : forall B (bstep : B -> event -> B * option fail) req pieces u b t,
  unmarshall_all B bstep req u b pieces =
  let '(u', b', f) := unmarshall_all _ (traced bstep) req u (b, t) pieces in (u', fst b', f).
Proof.
  intros. exact (morph_unmarshall_all _ _ (traced bstep) bstep fst (traced_fst B bstep) req pieces u (b, t)).
Qed.

Lemma traced_unmarshall : forall B (bstep : B -> event -> B * option fail) req data u b t,
  unmarshall B bstep req u b data =
  let '(u', b', f) := unmarshall _ (traced bstep) req u (b, t) data in (u', fst b', f).
Proof.
  intros. exact (morph_unmarshall _ _ (traced bstep) bstep fst (traced_fst B bstep) req u (b, t) data).
Qed.
