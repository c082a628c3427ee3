(** Proofs about the lines of the console. *)
From Coq Require Import Lia ZifyBool.
From Verif Require Import Base Value Text M_BinUnmarshal M_Python M_PyDate M_Netcat S_Netcat L_Base L_Text L_Python L_Netcat.

Local Arguments ustr : simpl never.

Lemma ueqb_eq : forall a b, ueqb a b = true <-> a = b.
Proof.
  unfold ueqb. induction a as [|x a IH]; intros [|y b]; cbn [pystr_eqb]; try (split; [discriminate|discriminate]); [split; reflexivity|].
  rewrite andb_true_iff, IH, Z.eqb_eq. split; [intros [-> ->]; reflexivity|intro E; injection E; auto].
Qed.
Lemma ueqb_ne : forall a b, a <> b -> ueqb a b = false.
Proof. intros a b N. destruct (ueqb a b) eqn:E; [|reflexivity]. apply ueqb_eq in E. contradiction. Qed.
Lemma ueqb_refl : forall a, ueqb a a = true.
Proof. intro a. apply ueqb_eq. reflexivity. Qed.

Lemma word_space : forall w, word w -> ~ In 32 w.
Proof. intros w [_ F] I. rewrite Forall_forall in F. destruct (F _ I). congruence. Qed.

Lemma split_word : forall w r, ~ In 32 w -> split_on 32 (w ++ 32 :: r) = w :: split_on 32 r.
Proof.
  induction w as [|c w IH]; intros r N; [reflexivity|]. cbn [app split_on]. destruct (Z.eqb_spec c 32) as [->|_]; [destruct N; left; reflexivity|].
  rewrite IH; [reflexivity|]. intro I. apply N. right. exact I.
Qed.
Lemma split_last : forall w, ~ In 32 w -> split_on 32 w = [w].
Proof.
  induction w as [|c w IH]; intros N; [reflexivity|]. cbn [split_on]. destruct (Z.eqb_spec c 32) as [->|_]; [destruct N; left; reflexivity|].
  rewrite IH; [reflexivity|]. intro I. apply N. right. exact I.
Qed.
Lemma split_line : forall l, l <> [] -> Forall word l -> split_on 32 (line_of l) = l.
Proof.
  induction l as [|w l IH]; intros N F; [contradiction|]. inversion F as [|? ? W FL]; subst. pose proof (word_space w W) as S.
  destruct l as [|w2 l]; [apply split_last; exact S|]. change (line_of (w :: w2 :: l)) with (w ++ 32 :: line_of (w2 :: l)). rewrite split_word by exact S.
  rewrite IH; [reflexivity|discriminate|exact FL].
Qed.

Definition inner (c : Z) : Prop := c <> 32 /\ c <> 10 /\ c <> 13.
Lemma line_chars : forall l, Forall word l -> Forall (fun c => c <> 10 /\ c <> 13) (line_of l).
Proof.
  induction l as [|w l IH]; intros F; [constructor|]. inversion F as [|? ? W FL]; subst.
  assert (FW: Forall (fun c => c <> 10 /\ c <> 13) w) by (eapply Forall_impl; [|exact (proj2 W)]; cbv beta; tauto).
  destruct l as [|w2 l]; [exact FW|]. change (line_of (w :: w2 :: l)) with (w ++ 32 :: line_of (w2 :: l)).
  apply Forall_app. split; [exact FW|]. constructor; [split; discriminate|]. apply IH. exact FL.
Qed.
Lemma line_filter : forall l, Forall word l -> filter (fun c => negb ((c =? 10) || (c =? 13))) (line_of l) = line_of l.
Proof.
  intros l F. pose proof (line_chars l F) as H. revert H. generalize (line_of l). intros s H.
  induction H as [|c s [C1 C2] H IH]; [reflexivity|]. cbn [filter]. rewrite IH.
  destruct (Z.eqb_spec c 10); [contradiction|]. destruct (Z.eqb_spec c 13); [contradiction|]. reflexivity.
Qed.
Lemma line_head : forall l, l <> [] -> Forall word l -> exists c r, line_of l = c :: r /\ c <> 32.
Proof.
  intros l N F. destruct l as [|w l]; [contradiction|]. inversion F as [|? ? W FL]; subst. destruct W as [NE FW].
  destruct w as [|c w]; [contradiction|]. inversion FW as [|? ? C _]; subst. exists c. destruct l; eexists; (split; [reflexivity|tauto]).
Qed.
Lemma line_end : forall l, l <> [] -> Forall word l -> exists c r, rev (line_of l) = c :: r /\ c <> 32.
Proof.
  induction l as [|w l IH]; intros N F; [contradiction|]. inversion F as [|? ? W FL]; subst. destruct l as [|w2 l].
  - destruct W as [NE FW]. cbn [line_of]. destruct (rev w) as [|c r] eqn:R; [apply (f_equal (@rev Z)) in R; rewrite rev_involutive in R; subst; destruct (NE eq_refl)|].
    exists c, r. split; [reflexivity|]. rewrite Forall_forall in FW. apply (FW c). apply in_rev. rewrite R. left. reflexivity.
  - destruct (IH ltac:(discriminate) FL) as (c & r & E & C). exists c. change (line_of (w :: w2 :: l)) with (w ++ 32 :: line_of (w2 :: l)).
    rewrite rev_app_distr. cbn [rev]. rewrite E. eexists. split; [reflexivity|exact C].
Qed.
Lemma line_strip : forall l, Forall word l -> strip (line_of l) = line_of l.
Proof.
  intros l F. destruct l as [|w l]; [reflexivity|]. unfold strip. destruct (line_head (w :: l) ltac:(discriminate) F) as (c & r & E & C).
  replace (lstrip (line_of (w :: l))) with (line_of (w :: l)) by (rewrite E; cbn [lstrip]; destruct (Z.eqb_spec c 32); [contradiction|reflexivity]).
  destruct (line_end (w :: l) ltac:(discriminate) F) as (c2 & r2 & E2 & C2). rewrite E2. cbn [lstrip].
  destruct (Z.eqb_spec c2 32); [contradiction|]. rewrite <- E2. apply rev_involutive.
Qed.

Lemma word_of : forall s, s <> [] -> forallb (fun c => negb ((c =? 32) || (c =? 10) || (c =? 13))) s = true -> word s.
Proof. intros s N F. split; [exact N|]. rewrite forallb_forall in F. apply Forall_forall. intros c I. specialize (F c I). lia. Qed.

(** ** What is left to do when the line is cut into words *)
Section Line.
  Variable py_int : pystr -> option Z.
  Definition dispatch (cmd : pystr) (w : list pystr) : action :=
    let n := Z.of_nat (length w) in
    let db := ueqb (hd [] w) (ustr "connectdb") in
    let first := if db then ustr "connect" else hd [] w in
    let is s := ueqb first (ustr s) in
    if match first with 35 :: _ => true | _ => false end then A_nothing
    else if ueqb cmd (ustr "exit") || ueqb cmd (ustr "quit") then A_exit (if n =? 2 then Some (nth 1 w []) else None)
    else if is "license"%string then A_license
    else if is "connect"%string then connect py_int db w
    else if is "charset"%string && (n =? 2) then A_charset (nth 1 w [])
    else if is "name"%string && (n =? 2) then A_name (nth 1 w [])
    else if is "autocommit"%string && (n =? 2) then A_autocommit (switch (nth 1 w []))
    else if is "autosort"%string && (n =? 2) then A_autosort (switch (nth 1 w []))
    else if is "timeout"%string && (n =? 2) then A_timeout (option_map (Z.mul 1000) (py_int (nth 1 w [])))
    else if is "import"%string then A_import (if n =? 2 then Some (nth 1 w []) else None)
    else if is "shell"%string then A_shell (n =? 1)
    else if is "exec"%string then if 2 <=? n then A_exec (tl w) else A_nothing
    else if is "?"%string || is "??"%string || is "help"%string then
      if n =? 1 then A_help else if n =? 2 then A_help_on (is "??"%string) (nth 1 w []) else A_help_none
    else
      match cmd with
      | [] => A_nothing
      | _ =>
          let star := last cmd 0 =? 42 in
          let cmd := if star then removelast cmd else cmd in
          match cmd with
          | [] => A_nothing
          | 33 :: code => A_run code
          | _ => A_eval star cmd
          end
      end.

  Lemma command_plain : forall l, l <> [] -> Forall word l -> (length l = 1%nat \/ plain (last l [])) -> command py_int (line_of l) = dispatch (line_of l) l.
  Proof.
    intros l N F P. unfold command. rewrite (line_filter l F), (line_strip l F), (split_line l N F).
    assert (H: (1 <? Z.of_nat (length l)) && existsb (ueqb (last l [])) [ustr "-h"; ustr "--help"] = false).
    { destruct P as [P|(_ & P1 & P2)]; [rewrite P; reflexivity|]. cbn [existsb]. rewrite (ueqb_ne _ _ P1), (ueqb_ne _ _ P2). apply andb_false_r. }
    rewrite H. reflexivity.
  Qed.
  Lemma flag_word : forall flag, In flag [ustr "-h"; ustr "--help"] -> word flag.
  Proof. intros flag I. cbn [In] in I. repeat (destruct I as [<-|I]; [apply word_of; [discriminate|reflexivity]|]). destruct I. Qed.
  Lemma command_help : forall m flag, word m -> In flag [ustr "-h"; ustr "--help"] ->
    command py_int (line_of [m; flag]) = dispatch (ustr "? " ++ before 40 m) [ustr "?"; before 40 m].
  Proof.
    intros m flag W FL. assert (F: Forall word [m; flag]) by (constructor; [exact W|]; constructor; [exact (flag_word _ FL)|constructor]).
    unfold command. rewrite (line_filter _ F), (line_strip _ F), (split_line [m; flag] ltac:(discriminate) F).
    cbn [length Z.of_nat Pos.of_succ_nat Pos.succ last].
    replace (existsb (ueqb flag) [ustr "-h"; ustr "--help"]) with true by (symmetry; apply existsb_exists; exists flag; split; [exact FL|apply ueqb_refl]).
    change (1 <? 2) with true. cbn [andb hd]. reflexivity.
  Qed.
  Lemma before_none : forall m, ~ In 40 m -> before 40 m = m.
  Proof.
    induction m as [|c m IH]; intro B; [reflexivity|]. cbn [before].
    destruct (Z.eqb_spec c 40) as [->|_]; [destruct B; left; reflexivity|]. rewrite IH; [reflexivity|]. intro I. apply B. right. exact I.
  Qed.
  Lemma before_some : forall m r, ~ In 40 m -> before 40 (m ++ 40 :: r) = m.
  Proof.
    induction m as [|c m IH]; intros r B; [reflexivity|]. cbn [app before].
    destruct (Z.eqb_spec c 40) as [->|_]; [destruct B; left; reflexivity|]. rewrite IH; [reflexivity|]. intro I. apply B. right. exact I.
  Qed.

  (** Spaces around a line, and what ends lines, do not matter. *)
  Lemma lstrip_blank : forall n s, lstrip (repeat 32 n ++ s) = lstrip s.
  Proof. induction n as [|n IH]; intro s; [reflexivity|]. cbn [repeat app lstrip]. apply IH. Qed.
  Lemma lstrip_end : forall n s, lstrip (s ++ repeat 32 n) = lstrip s ++ repeat 32 n \/ (lstrip s = [] /\ lstrip (s ++ repeat 32 n) = []).
  Proof.
    intros n. induction s as [|c s IH]; cbn [app lstrip].
    - right. split; [reflexivity|]. pose proof (lstrip_blank n []) as H. rewrite app_nil_r in H. exact H.
    - destruct (Z.eqb_spec c 32); [exact IH|left; reflexivity].
  Qed.
  Lemma rev_repeat : forall n (c : Z), rev (repeat c n) = repeat c n.
  Proof.
    induction n as [|n IH]; intro c; [reflexivity|]. cbn [repeat rev]. rewrite IH. clear. induction n; [reflexivity|]. cbn [repeat app]. rewrite IHn. reflexivity.
  Qed.
  Lemma strip_blank : forall n m s, strip (repeat 32 n ++ s ++ repeat 32 m) = strip s.
  Proof.
    intros n m s. unfold strip. rewrite lstrip_blank. destruct (lstrip_end m s) as [->|[-> ->]]; [|reflexivity].
    rewrite rev_app_distr, rev_repeat, lstrip_blank. reflexivity.
  Qed.
  Lemma command_blank : forall n m s, command py_int (repeat 32 n ++ s ++ repeat 32 m) = command py_int s.
  Proof.
    intros n m s. unfold command. assert (E: forall k, filter (fun c => negb ((c =? 10) || (c =? 13))) (repeat 32 k) = repeat 32 k)
      by (induction k as [|k IH]; [reflexivity|]; cbn [repeat filter]; rewrite IH; reflexivity).
    rewrite !filter_app, !E, strip_blank. reflexivity.
  Qed.
  Lemma command_ends : forall a b c, c = 10 \/ c = 13 -> command py_int (a ++ c :: b) = command py_int (a ++ b).
  Proof. intros a b c H. unfold command. rewrite !filter_app. cbn [filter]. destruct H as [->| ->]; reflexivity. Qed.
End Line.

(** ** The documented commands *)
Section Documented.
  Variable py_int : pystr -> option Z.
  Hypothesis numbers : reads_numbers py_int.

  Lemma udec_word : forall z, word (udec z).
  Proof.
    intro z. split.
    - intro E. unfold udec in E. apply map_eq_nil in E. unfold dec_signed in E. destruct (z <? 0) eqn:L; [discriminate E|].
      destruct (dec_spec z ltac:(lia)) as (NE & _). contradiction.
    - eapply Forall_impl; [|apply udec_numeral]. intros c [H|H]; lia.
  Qed.
  Lemma udec_plain : forall z, plain (udec z).
  Proof.
    intro z. split; [apply udec_word|]. pose proof (udec_numeral z) as N. rewrite Forall_forall in N.
    split; intro E; rewrite E in N; (assert (H: numeral 104) by (apply N; vm_compute; tauto)); destruct H; lia.
  Qed.
  Lemma has_char_no : forall c s, ~ In c s -> has_char c s = false.
  Proof.
    intros c s N. unfold has_char. destruct (existsb (Z.eqb c) s) eqn:E; [|reflexivity]. apply existsb_exists in E. destruct E as (x & I & E).
    apply Z.eqb_eq in E. subst. contradiction.
  Qed.
  Lemma has_text_skip : forall p a s, has_text p s = true -> has_text p (a ++ s) = true.
  Proof. intros p a s H. induction a as [|x a IH]; [exact H|]. cbn [app has_text]. rewrite IH. apply orb_true_r. Qed.
  Lemma has_text_no : forall p s c, In c p -> ~ In c s -> has_text p s = false.
  Proof.
    intros p s c I. induction s as [|x s IH]; intro N; cbn [has_text].
    - rewrite firstn_nil, ueqb_ne; [reflexivity|]. intros ->. contradiction.
    - rewrite IH by (intro J; apply N; right; exact J). rewrite ueqb_ne; [reflexivity|]. intros E. apply N. rewrite E in I.
      clear - I. revert I. generalize (x :: s) as q, (length p) as n. intros q n. revert q. induction n as [|n IHn]; intros [|y q]; cbn [firstn]; try contradiction.
      intros [->|J]; [left; reflexivity|right; apply IHn; exact J].
  Qed.

  Lemma has_text_in : forall p s, has_text p s = true -> exists a b, s = a ++ p ++ b.
  Proof.
    intros p s. induction s as [|x s IH]; cbn [has_text]; intro H; apply orb_prop in H; destruct H as [H|H].
    - apply ueqb_eq in H. exists [], (skipn (length p) []). rewrite H at 1. symmetry. exact (firstn_skipn _ _).
    - discriminate H.
    - apply ueqb_eq in H. exists [], (skipn (length p) (x :: s)). rewrite H at 1. symmetry. exact (firstn_skipn _ _).
    - destruct (IH H) as (a & b & ->). exists (x :: a), b. reflexivity.
  Qed.

  Lemma address_host : forall host port, ~ In 47 host -> host <> ustr "0" ->
    address host (udec port) = ustr "http://" ++ host ++ ustr ":" ++ udec port ++ ustr "/RPC2".
  Proof.
    intros host port S Z0. unfold address. rewrite (has_char_no _ _ S), (ueqb_ne _ _ Z0).
    assert (H: has_text (ustr "://") (host ++ ustr ":" ++ udec port ++ ustr "/RPC2") = false).
    { destruct (has_text _ _) eqn:E; [|reflexivity]. exfalso. apply has_text_in in E. destruct E as (a & b & E).
      apply (f_equal (fun s => count_occ Z.eq_dec s 47)) in E. rewrite !count_occ_app in E.
      rewrite (proj1 (count_occ_not_In Z.eq_dec host 47) S) in E.
      rewrite (proj1 (count_occ_not_In Z.eq_dec (udec port) 47)) in E.
      - change (count_occ Z.eq_dec (ustr ":") 47) with 0%nat in E. change (count_occ Z.eq_dec (ustr "/RPC2") 47) with 1%nat in E.
        change (count_occ Z.eq_dec (ustr "://") 47) with 2%nat in E. lia.
      - intro I. pose proof (udec_numeral port) as N. rewrite Forall_forall in N. destruct (N _ I); lia. }
    rewrite H. reflexivity.
  Qed.
  Lemma address_url : forall rest, address (ustr "http://" ++ rest) [] = ustr "http://" ++ rest.
  Proof.
    intro rest. unfold address. replace (has_char 47 (ustr "http://" ++ rest)) with true; [|reflexivity].
    replace (has_text (ustr "://") (ustr "http://" ++ rest)) with true; [reflexivity|]. symmetry. change (ustr "http://" ++ rest) with (ustr "http" ++ (ustr "://" ++ rest)).
    apply has_text_skip. change (ustr "://") with [58; 47; 47]. cbn [app has_text length firstn]. rewrite ueqb_refl. reflexivity.
  Qed.

  Lemma slash_rest : forall rest, In 47 (ustr "http://" ++ rest).
  Proof. intro rest. change (ustr "http://" ++ rest) with ([104; 116; 116; 112; 58; 47; 47] ++ rest). cbn. tauto. Qed.
  Lemma url_plain : forall rest, word (ustr "http://" ++ rest) -> plain (ustr "http://" ++ rest).
  Proof. intros rest W. split; [exact W|]. change (ustr "http://" ++ rest) with ([104; 116; 116; 112; 58; 47; 47] ++ rest). cbn [app]. split; discriminate. Qed.
  Lemma kw_word : forall k, In k keywords -> word k.
  Proof.
    intros k I. unfold keywords in I. cbn [map In] in I. repeat (destruct I as [<-|I]; [apply word_of; [discriminate|reflexivity]|]). destruct I.
  Qed.
  Ltac kw := apply kw_word; unfold keywords; cbn [map In]; tauto.
  Lemma documented_words : forall l a, documented l a -> l <> [] /\ Forall word l.
  Proof.
    intros l a D. assert (H: word (ustr "-h") /\ forall s, In s [ustr "1"; ustr "on"; ustr "true"; ustr "0"; ustr "off"; ustr "false"] -> word s).
    { split; [apply word_of; [discriminate|reflexivity]|]. intros s I. cbn [In] in I. repeat (destruct I as [<-|I]; [apply word_of; [discriminate|reflexivity]|]). destruct I. }
    destruct H as [HH SW]. pose proof flag_word as FW. destruct D; (split; [discriminate|]);
      repeat match goal with H : plain _ |- _ => let P := fresh "PL" in pose proof (proj1 H) as P; revert H end; intros;
      repeat (constructor; [solve [kw | assumption | apply udec_word | apply SW; cbn [In] in *; tauto | apply FW; assumption]|]); try constructor; auto;
      match goal with H : Forall word (_ :: _) |- _ => inversion H; subst; assumption end.
  Qed.

  Lemma not_keyword : forall w k, ~ In w keywords -> In k keywords -> ueqb w k = false.
  Proof. intros w k N I. apply ueqb_ne. intros ->. contradiction. Qed.
  Lemma long_line : forall a b l k, word a -> word b -> ~ In 32 k -> ueqb (line_of (a :: b :: l)) k = false.
  Proof.
    intros a b l k A B N. apply ueqb_ne. intro E. apply N. rewrite <- E. change (line_of (a :: b :: l)) with (a ++ 32 :: line_of (b :: l)).
    apply in_or_app. right. left. reflexivity.
  Qed.
  Lemma num_true : forall z, match py_int (udec z) with Some _ => true | None => false end = true.
  Proof. intro z. rewrite (proj1 numbers). reflexivity. Qed.
  Lemma http_form : forall rest, ustr "http://" ++ rest = [104; 116; 116; 112; 58; 47; 47] ++ rest.
  Proof. reflexivity. Qed.

  Lemma connect3 : forall db c host p z, py_int p = Some z -> has_char 47 host = false -> db = false -> connect py_int db [c; host; p] = A_connect None (address host p).
  Proof. intros db c host p z P H ->. unfold connect. simpl. rewrite P. simpl. rewrite H. reflexivity. Qed.
  Lemma connect4 : forall c name host p, has_char 47 host = false -> connect py_int false [c; name; host; p] = A_connect (Some name) (address host p).
  Proof. intros c name host p H. unfold connect. simpl. rewrite H. reflexivity. Qed.
  Lemma connect2 : forall c url, has_char 47 url = true -> connect py_int false [c; url] = A_connect None (address url []).
  Proof. intros c url H. unfold connect. simpl. rewrite H. reflexivity. Qed.
  Lemma connect3n : forall c name url, py_int url = None -> has_char 47 url = true -> connect py_int false [c; name; url] = A_connect (Some name) (address url []).
  Proof. intros c name url P H. unfold connect. simpl. rewrite P. simpl. rewrite H. reflexivity. Qed.
  Lemma connect5 : forall c name host db user, has_char 47 host = false -> host <> ustr "0" -> connect py_int true [c; name; host; db; user] = A_connect_db (Some name) host db user [].
  Proof. intros c name host db user H Z0. unfold connect. simpl. rewrite H, (ueqb_ne _ _ Z0). reflexivity. Qed.
  Lemma connect6 : forall c name host db user pw, has_char 47 host = false -> host <> ustr "0" -> connect py_int true [c; name; host; db; user; pw] = A_connect_db (Some name) host db user pw.
  Proof. intros c name host db user pw H Z0. unfold connect. simpl. rewrite H, (ueqb_ne _ _ Z0). reflexivity. Qed.

  Definition no_exit (cmd : pystr) : Prop := ueqb cmd (ustr "exit") || ueqb cmd (ustr "quit") = false.
  Lemma d_first : forall k r cmd, no_exit cmd -> In k ["connect"; "charset"; "name"; "shell"; "exec"; "??"; "?"; "help"]%string ->
    dispatch py_int cmd (ustr k :: r) =
      if String.eqb k "connect" then connect py_int false (ustr k :: r)
      else if String.eqb k "charset" then if Z.of_nat (S (length r)) =? 2 then A_charset (nth 0 r []) else dispatch py_int cmd (ustr k :: r)
      else if String.eqb k "name" then if Z.of_nat (S (length r)) =? 2 then A_name (nth 0 r []) else dispatch py_int cmd (ustr k :: r)
      else if String.eqb k "shell" then A_shell (Z.of_nat (S (length r)) =? 1)
      else if String.eqb k "exec" then if 2 <=? Z.of_nat (S (length r)) then A_exec r else A_nothing
      else if Z.of_nat (S (length r)) =? 1 then A_help else if Z.of_nat (S (length r)) =? 2 then A_help_on (String.eqb k "??") (nth 0 r []) else A_help_none.
  Proof.
    intros k r cmd H I. unfold no_exit in H. cbn [In] in I.
    repeat (destruct I as [<-|I]; [unfold dispatch; cbn [hd]; rewrite H; first [reflexivity | cbn [length]; destruct (Z.of_nat (S (length r)) =? 2); reflexivity]|]). destruct I.
  Qed.
  Lemma d_connectdb : forall r cmd, no_exit cmd -> dispatch py_int cmd (ustr "connectdb" :: r) = connect py_int true (ustr "connectdb" :: r).
  Proof. intros r cmd H. unfold no_exit in H. unfold dispatch. cbn [hd]. rewrite H. reflexivity. Qed.
  Lemma two_exit : forall a b l, word a -> word b -> no_exit (line_of (a :: b :: l)).
  Proof. intros a b l A B. unfold no_exit. rewrite !long_line by (assumption || (vm_compute; intuition discriminate)). reflexivity. Qed.

  Lemma d_other : forall w l, ~ In w keywords -> hd 0 w <> 35 -> no_exit (line_of (w :: l)) -> line_of (w :: l) <> [] -> last (line_of (w :: l)) 0 <> 42 ->
    dispatch py_int (line_of (w :: l)) (w :: l) = match line_of (w :: l) with 33 :: code => A_run code | s => A_eval false s end.
  Proof.
    intros w l K H35 X NE ST. unfold no_exit in X. unfold dispatch. cbn [hd].
    assert (KW: forall k, In (ustr k) keywords -> ueqb w (ustr k) = false) by (intros k I; apply not_keyword; assumption).
    assert (A: forall (k : string), In k ["license"; "connect"; "connectdb"; "charset"; "name"; "autocommit"; "autosort"; "timeout"; "import"; "shell"; "exec"; "?"; "??"; "help"]%string ->
      ueqb w (ustr k) = false).
    { intros k I. apply KW. unfold keywords. apply in_map. cbn [In] in I |- *. tauto. }
    rewrite (A "connectdb"%string) by (cbn [In]; tauto). rewrite X. rewrite !A by (cbn [In]; tauto). cbn [andb orb].
    destruct (Z.eqb_spec (last (line_of (w :: l)) 0) 42); [contradiction|].
    assert (H: match w with 35 :: _ => true | _ => false end = false) by (destruct w as [|c w]; [reflexivity|]; cbn [hd] in H35; destruct c as [|c|c]; try reflexivity; repeat (destruct c as [c|c|]; try reflexivity); congruence).
    rewrite H. destruct (line_of (w :: l)) as [|c r]; [congruence|].
    destruct c as [|c|c]; try reflexivity; repeat (destruct c as [c|c|]; try reflexivity).
  Qed.

  Theorem documented_command : forall l a, documented l a -> command py_int (line_of l) = a.
  Proof.
    intros l a D. destruct (documented_words l a D) as [NE F].
    assert (KW: forall k, In k keywords -> word k) by exact kw_word.
    assert (SW: forall s, In s [ustr "1"; ustr "on"; ustr "true"; ustr "0"; ustr "off"; ustr "false"] -> plain s).
    { intros s I. cbn [In] in I. repeat (destruct I as [<-|I]; [split; [apply word_of; [discriminate|reflexivity]|split; discriminate]|]). destruct I. }
    destruct D.
    - rewrite command_plain; [|assumption|assumption|right; apply udec_plain].
      rewrite d_first by (cbn [In]; tauto || (inversion F as [|? ? F1 F2]; inversion F2; subst; apply two_exit; assumption)).
      cbn [String.eqb Ascii.eqb Bool.eqb]. rewrite (connect3 false _ _ _ port) by (auto using has_char_no; apply (proj1 numbers)). rewrite address_host by assumption. reflexivity.
    - rewrite command_plain; [|assumption|assumption|right; apply udec_plain].
      rewrite d_first by (cbn [In]; tauto || (inversion F as [|? ? F1 F2]; inversion F2; subst; apply two_exit; assumption)).
      cbn [String.eqb Ascii.eqb Bool.eqb]. rewrite connect4 by (auto using has_char_no). rewrite address_host by assumption. reflexivity.
    - rewrite command_plain; [|assumption|assumption|right; apply url_plain; assumption].
      rewrite d_first by (cbn [In]; tauto || (inversion F as [|? ? F1 F2]; inversion F2; subst; apply two_exit; assumption)).
      cbn [String.eqb Ascii.eqb Bool.eqb]. rewrite connect2 by reflexivity. rewrite address_url. reflexivity.
    - rewrite command_plain; [|assumption|assumption|right; apply url_plain; assumption].
      rewrite d_first by (cbn [In]; tauto || (inversion F as [|? ? F1 F2]; inversion F2; subst; apply two_exit; assumption)).
      cbn [String.eqb Ascii.eqb Bool.eqb]. rewrite connect3n by (reflexivity || (apply (proj2 numbers); apply slash_rest)). rewrite address_url. reflexivity.
    - rewrite command_plain; [|assumption|assumption|right; assumption].
      rewrite d_connectdb by (inversion F as [|? ? F1 F2]; inversion F2; subst; apply two_exit; assumption). apply connect5; auto using has_char_no.
    - rewrite command_plain; [|assumption|assumption|right; assumption].
      rewrite d_connectdb by (inversion F as [|? ? F1 F2]; inversion F2; subst; apply two_exit; assumption). apply connect6; auto using has_char_no.
    - rewrite command_plain; [|assumption|assumption|right; assumption].
      rewrite d_first by (cbn [In]; tauto || (inversion F as [|? ? F1 F2]; inversion F2; subst; apply two_exit; assumption)). reflexivity.
    - rewrite command_plain; [|assumption|assumption|right; assumption].
      rewrite d_first by (cbn [In]; tauto || (inversion F as [|? ? F1 F2]; inversion F2; subst; apply two_exit; assumption)). reflexivity.
    - cbn [In] in H. repeat (destruct H as [<-|H]; [reflexivity|]). destruct H.
    - cbn [In] in H. repeat (destruct H as [<-|H]; [reflexivity|]). destruct H.
    - cbn [In] in H. repeat (destruct H as [<-|H]; [reflexivity|]). destruct H.
    - cbn [In] in H. repeat (destruct H as [<-|H]; [reflexivity|]). destruct H.
    - reflexivity.
    - rewrite command_plain; [|assumption|assumption|right; assumption].
      rewrite d_first by (cbn [In]; tauto || (inversion F as [|? ? F1 F2]; inversion F2; subst; apply two_exit; assumption)). reflexivity.
    - rewrite command_help, before_none by assumption. rewrite d_first; [reflexivity| |cbn [In]; tauto].
      change (ustr "? " ++ m) with (line_of [ustr "?"; m]). apply two_exit; [apply KW; unfold keywords; cbn [map In]; tauto|assumption].
    - rewrite command_help, before_some by assumption. rewrite d_first; [reflexivity| |cbn [In]; tauto]. reflexivity.
    - rewrite command_plain; [|assumption|assumption|right; assumption]. unfold dispatch. cbn [hd]. reflexivity.
    - rewrite command_plain; [|assumption|assumption|right; assumption].
      rewrite d_first by (cbn [In]; tauto || (inversion F as [|? ? F1 F2]; inversion F2; subst; apply two_exit; assumption)). reflexivity.
    - reflexivity.
    - reflexivity.
    - reflexivity.
    - destruct l as [|w l]; [contradiction|].
      rewrite command_plain; [|assumption|assumption|right; exact H1].
      rewrite d_first by (cbn [In]; tauto || (inversion F as [|? ? F1 F2]; inversion F2; subst; apply two_exit; assumption)). 
      cbn [String.eqb Ascii.eqb Bool.eqb length]. replace (2 <=? Z.of_nat (S (S (length l)))) with true by lia. reflexivity.
    - rewrite command_plain; [|assumption|assumption|right; assumption].
      assert (NK: forall k, In k keywords -> hd 0 k <> 33) by (intros k I; unfold keywords in I; cbn [map In] in I; repeat (destruct I as [<-|I]; [discriminate|]); destruct I).
      assert (LF: line_of (@cons pystr (33 :: w) l) = 33 :: line_of (w :: l)) by (destruct l; reflexivity).
      etransitivity; [apply d_other|rewrite LF; reflexivity]; [| | | |assumption].
      + intro I. apply (NK _ I). reflexivity.
      + discriminate.
      + unfold no_exit. change (@cons (list Z)) with (@cons pystr). rewrite LF. reflexivity.
      + change (@cons (list Z)) with (@cons pystr). rewrite LF. discriminate.
    - rewrite command_plain; [|assumption|assumption|right; assumption].
      destruct (line_head _ NE F) as (c & q & LE & C32).
      assert (HD: c = hd 0 w) by (inversion F as [|? ? [WN _] _]; subst; destruct w as [|x w]; [contradiction|]; destruct l; injection LE as <- _; reflexivity).
      rewrite d_other; try assumption.
      + rewrite LE. destruct (Z.eq_dec c 33) as [->|N]; [congruence|]. destruct c as [|c|c]; try reflexivity; repeat (destruct c as [c|c|]; try reflexivity). congruence.
      + destruct l as [|w2 l]; [|inversion F as [|? ? F1 F2]; inversion F2; subst; apply two_exit; assumption].
        unfold no_exit. cbn [line_of]. rewrite !not_keyword; auto; unfold keywords; cbn [map In]; tauto.
      + rewrite LE. discriminate.
  Qed.
End Documented.

(** ** No line sets the status *)
Section Exit.
  Variable py_int : pystr -> option Z.
  Lemma dispatch_exit : forall cmd w c, dispatch py_int cmd w = A_exit (Some c) -> (cmd = ustr "exit" \/ cmd = ustr "quit") /\ Z.of_nat (length w) = 2.
  Proof.
    intros cmd w c E. unfold dispatch in E.
    destruct (ueqb cmd (ustr "exit") || ueqb cmd (ustr "quit")) eqn:X.
    - split; [apply orb_prop in X; destruct X as [X|X]; apply ueqb_eq in X; auto|].
      destruct (match _ with 35 :: _ => true | _ => false end); [discriminate E|]. destruct (Z.eqb_spec (Z.of_nat (length w)) 2) as [L|L]; [exact L|discriminate E].
    - exfalso. cbn iota in E. repeat match type of E with (if ?b then _ else _) = _ => destruct b; try discriminate E end.
      + unfold connect in E. repeat match type of E with
          | (if ?b then _ else _) = _ => destruct b; try discriminate E
          | (let '(_, _) := ?p in _) = _ => destruct p; try discriminate E end.
      + destruct (last _ 0 =? 42); [destruct (removelast _) as [|z0 q]; [discriminate E|]|];
          match type of E with match ?c with _ => _ end = _ => destruct c as [|p|p]; try discriminate E; repeat (destruct p as [p|p|]; try discriminate E) end.
  Qed.
  Lemma exit_alone : forall line c, command py_int line <> A_exit (Some c).
  Proof.
    intros line c E. unfold command in E. set (cmd := strip _) in E. set (w := split_on 32 cmd) in E.
    destruct ((1 <? Z.of_nat (length w)) && existsb (ueqb (last w [])) [ustr "-h"; ustr "--help"]) eqn:H.
    - destruct (dispatch_exit (ustr "? " ++ before 40 (hd [] w)) [ustr "?"; before 40 (hd [] w)] c E) as [[X|X] _]; discriminate X.
    - destruct (dispatch_exit cmd w c E) as [[X|X] L]; subst w; rewrite X in L; vm_compute in L; discriminate L.
  Qed.
End Exit.

(** ** Scripts *)
Section Script.
  Variable world : Type.
  Variable py_int : pystr -> option Z.
  Variable perform : action -> world -> world * ends.
  Variable spawn : list pystr -> world -> world * Z.
  Hypothesis no_escape : forall a w, match snd (perform a w) with E_eof | E_exit _ => False | _ => True end.
  Let does (l : pystr) (w : world) := act world perform spawn false (command py_int l) w.
  Let ends_here (l : pystr) := command py_int l = A_exit None.

  Lemma act_ends : forall a w, match snd (act world perform spawn false a w) with E_eof | E_exit _ => False | _ => True end.
  Proof. intros a w. destruct a as [|[c|]| | | | | | |[b|]|[b|]|[z|]|[m|]|[|]| | | | | |]; cbn [act snd]; first [exact I|apply no_escape]. Qed.

  Lemma console_line : forall l r again w, command py_int l <> A_exit None ->
    console world py_int perform spawn false again (I_line l :: r) w =
    let '(w1, e) := does l w in match e with E_fine => console world py_int perform spawn false false r w1 | E_fails | E_interrupt => (w1, 255) | E_eof => (w1, 0) | E_exit z => (w1, z mod 256) end.
  Proof.
    intros l r again w N. pose proof (exit_alone py_int l) as X. cbn [console]. unfold does. destruct (command py_int l) as [|[c|]| | | | | | | | | | | | | | | | |]; try reflexivity.
    - destruct (X c eq_refl).
    - congruence.
  Qed.
  Lemma script_run : forall ls again w w2 z, script world does ends_here ls w w2 z <-> console world py_int perform spawn false again (map I_line ls) w = (w2, z).
  Proof.
    induction ls as [|l ls IH]; intros again w w2 z.
    - cbn [map console]. split; [intro S; inversion S; reflexivity|intro E; injection E as <- <-; constructor].
    - cbn [map]. assert (D: {command py_int l = A_exit None} + {command py_int l <> A_exit None}).
      { destruct (command py_int l) as [|[c|]| | | | | | | | | | | | | | | | |]; try (right; discriminate). left. reflexivity. }
      destruct D as [D|D].
      + cbn [console]. rewrite D. split; [intro S; inversion S; subst; try (unfold ends_here in *; congruence); reflexivity|intro E; injection E as <- <-; constructor; exact D].
      + rewrite console_line by exact D. pose proof (act_ends (command py_int l) w) as AE. fold (does l w) in AE. destruct (does l w) as [w1 e] eqn:DO. cbn [snd] in AE.
        split.
        * intro S. inversion S as [|? ? ? H|? ? ? w1' ? ? H1 H2 H3|? ? ? w1' e' H1 H2 H3]; subst; [contradiction| |].
          -- rewrite DO in H2. injection H2 as <- ->. apply (IH false). exact H3.
          -- rewrite DO in H2. injection H2 as -> ->. destruct H3 as [->| ->]; reflexivity.
        * intro E. destruct e; try destruct AE.
          -- eapply sc_next; [exact D|exact DO|]. apply (IH false). exact E.
          -- injection E as -> <-. eapply sc_fails; [exact D|exact DO|auto].
          -- injection E as -> <-. eapply sc_fails; [exact D|exact DO|auto].
  Qed.
End Script.

(** ** A terminal *)
Lemma session_run : forall world py_int perform spawn ls again w w2 z,
  session world (fun l w => act world perform spawn true (command py_int l) w) (fun l => command py_int l = A_exit None) again ls w w2 z <->
  console world py_int perform spawn true again ls w = (w2, z).
Proof.
  intros world py_int perform spawn. induction ls as [|[l|] ls IH]; intros again w w2 z.
  - cbn [console]. split; [intro S; inversion S; reflexivity|intro E; injection E as <- <-; constructor].
  - assert (D: {command py_int l = A_exit None} + {command py_int l <> A_exit None}).
    { destruct (command py_int l) as [|[c|]| | | | | | | | | | | | | | | | |]; try (right; discriminate). left. reflexivity. }
    destruct D as [D|D].
    + cbn [console]. rewrite D. split; [intro S; inversion S; subst; try congruence; reflexivity|intro E; injection E as <- <-; constructor; exact D].
    + assert (L: console world py_int perform spawn true again (I_line l :: ls) w =
        let '(w, e) := act world perform spawn true (command py_int l) w in
        match e with
        | E_fine => console world py_int perform spawn true false ls w
        | E_fails => console world py_int perform spawn true false ls w
        | E_interrupt => console world py_int perform spawn true true ls w
        | E_eof => (w, 0)
        | E_exit z => (w, z mod 256)
        end).
      { pose proof (exit_alone py_int l) as X. cbn [console]. destruct (command py_int l) as [|[c|]| | | | | | | | | | | | | | | | |]; try reflexivity; [exfalso; eapply X; reflexivity|congruence]. }
      rewrite L. clear L. destruct (act world perform spawn true (command py_int l) w) as [w1 e] eqn:DO. split.
      * intro S. inversion S; subst; cbv beta in *; try congruence; try contradiction;
          match goal with H : act _ _ _ _ _ _ = _ |- _ => rewrite DO in H; inversion H; subst end; try reflexivity; try (apply IH; assumption).
        match goal with H : _ \/ _ |- _ => destruct H as [->| ->]; apply IH; assumption end.
      * intro E. destruct e.
        -- eapply se_next; [exact D|exact DO|auto|]. apply IH. exact E.
        -- eapply se_next; [exact D|exact DO|auto|]. apply IH. exact E.
        -- eapply se_stopped; [exact D|exact DO|]. apply IH. exact E.
        -- injection E as <- <-. eapply se_eof; [exact D|exact DO].
        -- injection E as <- <-. eapply se_leaves; [exact D|exact DO].
  - cbn [console]. destruct again.
    + split; [intro S; inversion S; reflexivity|intro E; injection E as <- <-; constructor].
    + split; [intro S; inversion S; subst; apply IH; assumption|intro E; constructor; apply IH; exact E].
Qed.

(** ** Completion *)
Lemma starts_found : forall text w, ueqb (firstn (length text) w) text = true <-> exists r, w = text ++ r.
Proof.
  intros text w. rewrite ueqb_eq. split.
  - intro E. exists (skipn (length text) w). rewrite <- E at 1. symmetry. apply firstn_skipn.
  - intros [r ->]. rewrite firstn_app, Nat.sub_diag, firstn_O, app_nil_r. apply firstn_all.
Qed.
