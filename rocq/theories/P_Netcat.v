(** C113-C117: the console fastrpc-netcat3. *)
From Coq Require Import Lia Permutation.
From Verif Require Import Base Value Text M_BinUnmarshal M_Python M_PyDate M_Netcat S_Netcat S_Json L_Base L_Text L_Python L_Netcat L_Netcat2.

(** * C113 *)

(** Two readable results that are printed alike are the same, whether members are sorted or not. *)
Theorem C113_unique_partial : forall autosort float_text bytes_text std_text other_text, prints_floats float_text ->
  forall v w, readable v -> readable w -> forall t,
  write_out autosort float_text bytes_text std_text other_text v = Some t -> write_out autosort float_text bytes_text std_text other_text w = Some t ->
  same_result v w.
Proof. exact prints_unique. Qed.
Print Assumptions C113_unique_partial.

(** Refuted: quotes are not escaped, so that a list of one text looks like a list of two; [bytes] look like the text of them. *)
Definition two_texts : py := PyList [PyStr (ustr "a"); PyStr (ustr "b")].
Definition one_text : py := PyList [PyStr (ustr "a""" ++ [10] ++ ustr "    [1] string = ""b")].
Theorem C113_quotes_refuted : forall autosort float_text bytes_text std_text other_text,
  write_out autosort float_text bytes_text std_text other_text one_text = write_out autosort float_text bytes_text std_text other_text two_texts /\
  ~ same_result one_text two_texts.
Proof.
  intros. split; [reflexivity|]. intro S. inversion S as [| | | | | |l l' F|]; subst. inversion F as [|? ? ? ? X Y]; subst. inversion Y.
Qed.
Print Assumptions C113_quotes_refuted.
Theorem C113_bytes_refuted : forall autosort float_text bytes_text std_text other_text s,
  write_out autosort float_text bytes_text std_text other_text (PyBytes s) = write_out autosort float_text bytes_text std_text other_text (PyStr (bytes_text s)).
Proof. reflexivity. Qed.
Print Assumptions C113_bytes_refuted.

(** Refuted: the zone of a date, kept in seconds, is printed times 100 (one hour: +360000), that of a negative zone with two signs. *)
Theorem C113_zone_refuted : forall autosort float_text bytes_text std_text other_text d,
  write_out autosort float_text bytes_text std_text other_text (PyDate d) =
  Some (ustr "result = datetime " ++ udec (dt_day d) ++ ustr "." ++ udec (dt_month d) ++ ustr "." ++ udec (dt_year d) ++ ustr " " ++
        udec (dt_hour d) ++ ustr ":" ++ udec (dt_min d) ++ ustr ":" ++ udec (dt_sec d) ++
        (if dt_tz d <? 0 then ustr " --" ++ udec (- dt_tz d * 100) else ustr " +" ++ udec (dt_tz d * 100)) ++
        ustr " (" ++ match date_text d with PyStr u => u | _ => [] end ++ ustr ")" ++ [10]).
Proof.
  intros. unfold write_out. cbn [write tagged type_of]. f_equal. change (ustr "result = datetime ") with (ustr "result = " ++ ustr "datetime" ++ ustr " ").
  rewrite <- !app_assoc. do 3 f_equal. unfold date_out. rewrite <- !app_assoc. do 11 f_equal.
  assert (H: forall z (r : pystr), z < 0 -> ustr "-" ++ udec (z * 100) ++ r = ustr "--" ++ udec (- z * 100) ++ r).
  { intros z r N. unfold udec, dec_signed. replace (z * 100 <? 0) with true by lia. replace (- z * 100 <? 0) with false by lia.
    cbn [map]. rewrite <- Z.mul_opp_l. reflexivity. }
  destruct (dt_tz d <? 0) eqn:N.
  - replace (0 <=? dt_tz d) with false by lia. rewrite H by lia. change (ustr " --") with (ustr " " ++ ustr "--"). rewrite <- !app_assoc. reflexivity.
  - replace (0 <=? dt_tz d) with true by lia. change (ustr " +") with (ustr " " ++ ustr "+"). rewrite <- !app_assoc. reflexivity.
Qed.
Print Assumptions C113_zone_refuted.

Definition no_float : Z -> pystr := fun z => udec z ++ ustr "f".
Definition b_text (s : bytes) : pystr := ustr "b'" ++ map b2z s ++ ustr "'".
Definition blank_d : datetime -> pystr := fun _ => [].
Definition blank_o : py -> pystr := fun _ => [].
Definition reply : py := PyDict [(PyStr (ustr "status"), PyInt 200); (PyStr (ustr "items"), PyList [PyBool true; PyNone; PyFloat 0; PyStr (ustr "x y")])].
Lemma no_float_prints : prints_floats no_float.
Proof.
  split.
  - intros d I. apply in_app_or in I. destruct I as [I|I]; [|vm_compute in I; intuition discriminate]. pose proof (udec_numeral d) as N. rewrite Forall_forall in N. destruct (N _ I); lia.
  - intros d e _ _ E. apply app_inv_tail in E. apply udec_inj. exact E.
Qed.
Example C113_sample : readable reply /\ readable two_texts /\ prints_floats no_float /\
  write_out true no_float b_text blank_d blank_o reply = Some (ustr "result = struct {" ++ [10] ++ ustr "    array items = (" ++ [10] ++
    ustr "        [0] int = True" ++ [10] ++ ustr "        [1] = None" ++ [10] ++ ustr "        [2] float = 0f" ++ [10] ++ ustr "        [3] string = ""x y""" ++ [10] ++
    ustr "    )" ++ [10] ++ ustr "    int status = 200" ++ [10] ++ ustr "}" ++ [10]).
Proof.
  assert (U: forall s, forallb (fun c => negb ((c =? 32) || (c =? 10))) s = true -> s <> [61] -> usual_name s).
  { intros s F N. split; [|exact N]. apply Forall_forall. intros c I. rewrite forallb_forall in F. specialize (F c I). lia. }
  split; [|split; [|split; [exact no_float_prints|vm_compute; reflexivity]]].
  - assert (K: forall k, forallb (fun c => negb ((c =? 32) || (c =? 10))) k = true -> k <> [61] -> exists k', PyStr k = PyStr k' /\ usual_name k') by eauto.
    apply rd_dict. constructor; [split; [apply K; [reflexivity|discriminate]|constructor]|]. constructor; [|constructor].
    split; [apply K; [reflexivity|discriminate]|]. cbn [snd]. apply rd_list. repeat constructor; [intros [H _]; vm_compute in H; discriminate H|vm_compute; intuition discriminate].
  - repeat constructor; vm_compute; intuition discriminate.
Qed.

(** * C114 *)

(** With sorting, results equal but for the order of members are printed alike, and printing does not fail. *)
Theorem C114_order : forall float_text bytes_text std_text other_text v w, named v -> reordered v w ->
  write_out true float_text bytes_text std_text other_text v = write_out true float_text bytes_text std_text other_text w /\
  write_out true float_text bytes_text std_text other_text v <> None.
Proof.
  intros float_text bytes_text std_text other_text v w N R. destruct (prints_reordered float_text bytes_text std_text other_text v N w R []) as [E1 E2].
  unfold write_out. rewrite <- E1, (reordered_type _ _ R). split; [reflexivity|]. destruct (write _ _ _ _ _ v []); [discriminate|destruct (E2 eq_refl)].
Qed.
Print Assumptions C114_order.

(** Without the condition on the names, a result may not be printed: names of two kinds cannot be sorted. *)
Example C114_names : write_out true no_float b_text blank_d blank_o (PyDict [(PyStr (ustr "a"), PyInt 1); (PyInt 1, PyInt 2)]) = None.
Proof. reflexivity. Qed.
Example C114_sample : named reply /\ let other := PyDict [(PyStr (ustr "items"), PyList [PyBool true; PyNone; PyFloat 0; PyStr (ustr "x y")]); (PyStr (ustr "status"), PyInt 200)] in
  reordered reply other /\ write_out false no_float b_text blank_d blank_o reply <> write_out false no_float b_text blank_d blank_o other.
Proof.
  split.
  - apply nm_dict; [|repeat constructor; vm_compute; intuition discriminate].
    constructor; [split; [eexists; reflexivity|apply nm_atom; exact I]|]. constructor; [|constructor]. split; [eexists; reflexivity|].
    apply nm_list. repeat (constructor; [apply nm_atom; exact I|]). constructor.
  - cbv zeta. split; [|vm_compute; discriminate]. eapply ro_dict; [apply perm_swap|]. repeat constructor.
Qed.

(** * C115 *)

(** Every line the help text describes means what it says there, but for [timeout] and a result of [exit]; other lines are expressions. *)
Theorem C115_commands_partial : forall py_int, reads_numbers py_int -> forall l a, documented l a -> command py_int (line_of l) = a.
Proof. exact documented_command. Qed.
Print Assumptions C115_commands_partial.

(** Spaces around a line, and line ends within it, do not matter. *)
Theorem C115_spaces : forall py_int n m s, command py_int (repeat 32 n ++ s ++ repeat 32 m) = command py_int s.
Proof. exact command_blank. Qed.
Print Assumptions C115_spaces.
Theorem C115_line_ends : forall py_int a b c, c = 10 \/ c = 13 -> command py_int (a ++ c :: b) = command py_int (a ++ b).
Proof. exact command_ends. Qed.
Print Assumptions C115_line_ends.

(** Without a port it is 80; the host 0 is the local one. *)
Theorem C115_default_port : forall py_int, reads_numbers py_int -> forall host, plain host -> ~ In 47 host -> host <> ustr "0" ->
  command py_int (ustr "connect " ++ host) = A_connect None (ustr "http://" ++ host ++ ustr ":80/RPC2").
Proof.
  intros py_int R host W S Z0. change (ustr "connect " ++ host) with (line_of [ustr "connect"; host]).
  assert (C: word (ustr "connect")) by (apply word_of; [discriminate|reflexivity]).
  rewrite command_plain; [|discriminate|constructor; [exact C|constructor; [exact (proj1 W)|constructor]]|right; exact W].
  rewrite d_first by (cbn [In]; tauto || (apply two_exit; [exact C|exact (proj1 W)])). cbn [String.eqb Ascii.eqb Bool.eqb].
  unfold connect. simpl. rewrite (has_char_no _ _ S). change (ustr "80") with (udec 80). rewrite (address_host _ _ S Z0). reflexivity.
Qed.
Print Assumptions C115_default_port.
Theorem C115_own_host : forall py_int, reads_numbers py_int -> forall port, 
  command py_int (ustr "connect 0 " ++ udec port) = A_connect None (ustr "http://127.0.0.1:" ++ udec port ++ ustr "/RPC2").
Proof.
  intros py_int R port. change (ustr "connect 0 " ++ udec port) with (line_of [ustr "connect"; ustr "0"; udec port]).
  assert (C: word (ustr "connect")) by (apply word_of; [discriminate|reflexivity]).
  assert (Z: word (ustr "0")) by (apply word_of; [discriminate|reflexivity]).
  rewrite command_plain; [|discriminate|constructor; [exact C|constructor; [exact Z|constructor; [apply udec_word|constructor]]]|right; apply udec_plain].
  rewrite d_first by (cbn [In]; tauto || (apply two_exit; assumption)). cbn [String.eqb Ascii.eqb Bool.eqb].
  rewrite (connect3 py_int false _ _ _ port) by (reflexivity || apply (proj1 R)).
  pose proof (address_host (ustr "127.0.0.1") port ltac:(vm_compute; intuition discriminate) ltac:(discriminate)) as A.
  change (address (ustr "0") (udec port)) with (address (ustr "127.0.0.1") (udec port)). rewrite A. reflexivity.
Qed.
Print Assumptions C115_own_host.

(** Refuted: no line ends the console with a result. *)
Theorem C115_exit_refuted : forall py_int line c, command py_int line <> A_exit (Some c).
Proof. exact exit_alone. Qed.
Print Assumptions C115_exit_refuted.
Theorem C115_exit_line_refuted : forall py_int n, command py_int (ustr "exit " ++ udec n) = A_eval false (ustr "exit " ++ udec n).
Proof.
  intros py_int n. change (ustr "exit " ++ udec n) with (line_of [ustr "exit"; udec n]).
  assert (W: word (ustr "exit")) by (apply word_of; [discriminate|reflexivity]). pose proof (udec_word n) as N.
  rewrite command_plain; [|discriminate|constructor; [exact W|constructor; [exact N|constructor]]|right; apply udec_plain]. unfold dispatch. cbn [hd]. pose proof (two_exit (ustr "exit") (udec n) [] W N) as X.
  unfold no_exit in X. rewrite X. change (line_of [ustr "exit"; udec n]) with (ustr "exit " ++ udec n).
  assert (L: last (ustr "exit " ++ udec n) 0 =? 42 = false).
  { destruct (exists_last (proj1 N)) as (q & c & E). rewrite E, app_assoc, last_last. pose proof (udec_numeral n) as F. rewrite E in F. apply Forall_app in F. destruct F as [_ F].
    inversion F as [|? ? C _]; subst. destruct C; lia. }
  change (match ustr "exit" with 35 :: _ => true | _ => false end) with false. cbv zeta. rewrite L. reflexivity.
Qed.
Print Assumptions C115_exit_line_refuted.

(** Refuted: [timeout] takes its number, documented to be milliseconds, times 1000. *)
Theorem C115_timeout_refuted : forall py_int, reads_numbers py_int -> forall ms, command py_int (ustr "timeout " ++ udec ms) = A_timeout (Some (1000 * ms)).
Proof.
  intros py_int R ms. change (ustr "timeout " ++ udec ms) with (line_of [ustr "timeout"; udec ms]).
  assert (W: word (ustr "timeout")) by (apply word_of; [discriminate|reflexivity]). pose proof (udec_word ms) as N.
  rewrite command_plain; [|discriminate|constructor; [exact W|constructor; [exact N|constructor]]|right; apply udec_plain]. unfold dispatch. cbn [hd]. pose proof (two_exit (ustr "timeout") (udec ms) [] W N) as X.
  unfold no_exit in X. rewrite X. cbn [nth]. rewrite (proj1 R). reflexivity.
Qed.
Print Assumptions C115_timeout_refuted.

Example C115_sample : exists py_int, reads_numbers py_int /\
  documented [ustr "connect"; ustr "prod"; ustr "example.org"; udec 2424] (A_connect (Some (ustr "prod")) (ustr "http://example.org:2424/RPC2")) /\
  documented [ustr "client.add(1,"; ustr "2)"] (A_eval false (ustr "client.add(1, 2)")) /\
  documented [ustr "!x"; ustr "="; ustr "3"] (A_run (ustr "x = 3")) /\
  documented [ustr "client.add"; ustr "-h"] (A_help_on false (ustr "client.add")).
Proof.
  assert (W: forall s, s <> [] -> forallb (fun c => negb ((c =? 32) || (c =? 10) || (c =? 13))) s = true -> word s) by exact word_of.
  exists (fun s => if has_char 47 s then None else Some (js_integer (map z2b s))). split; [split|split; [|split; [|split]]].
  - intro z. rewrite has_char_no.
    + unfold udec. rewrite map_map. rewrite (map_ext _ (fun b => b)) by (intro b; apply z2b_b2z). rewrite map_id, (proj2 (L_Json.integer_dec z)). reflexivity.
    + intro I. pose proof (udec_numeral z) as N. rewrite Forall_forall in N. destruct (N _ I); lia.
  - intros s I. replace (has_char 47 s) with true; [reflexivity|]. symmetry. apply existsb_exists. exists 47. split; [exact I|reflexivity].
  - change (ustr "http://example.org:2424/RPC2") with (ustr "http://" ++ ustr "example.org" ++ ustr ":" ++ udec 2424 ++ ustr "/RPC2").
    apply doc_connect_name; [apply W; [discriminate|reflexivity]|apply W; [discriminate|reflexivity]|vm_compute; intuition discriminate|discriminate].
  - change (ustr "client.add(1, 2)") with (line_of [ustr "client.add(1,"; ustr "2)"]). apply doc_eval.
    + constructor; [apply W; [discriminate|reflexivity]|]. constructor; [apply W; [discriminate|reflexivity]|constructor].
    + split; [apply W; [discriminate|reflexivity]|split; discriminate].
    + vm_compute. intuition discriminate.
    + discriminate.
    + discriminate.
    + vm_compute. discriminate.
  - change (ustr "x = 3") with (line_of [ustr "x"; ustr "="; ustr "3"]). change (ustr "!x") with (33 :: ustr "x"). apply doc_run.
    + constructor; [apply W; [discriminate|reflexivity]|]. constructor; [apply W; [discriminate|reflexivity]|]. constructor; [apply W; [discriminate|reflexivity]|constructor].
    + split; [apply W; [discriminate|reflexivity]|split; discriminate].
    + vm_compute. discriminate.
  - apply doc_method_help; [apply W; [discriminate|reflexivity]|vm_compute; intuition discriminate|left; reflexivity].
Qed.

(** * C116 *)

(** A script: the lines in order until one fails (255), one ends it or there are no more (0); for commands that raise neither EOFError
    nor SystemExit. *)
Theorem C116_script_partial : forall world py_int perform spawn, (forall a w, match snd (perform a w) with E_eof | E_exit _ => False | _ => True end) ->
  forall ls again w w2 z,
  script world (fun l w => act world perform spawn false (command py_int l) w) (fun l => command py_int l = A_exit None) ls w w2 z <->
  console world py_int perform spawn false again (map I_line ls) w = (w2, z).
Proof. exact script_run. Qed.
Print Assumptions C116_script_partial.

(** At a terminal: a line that fails does not end the console, nor does a single Ctrl+C; for all commands. *)
Theorem C116_terminal : forall world py_int perform spawn ls again w w2 z,
  session world (fun l w => act world perform spawn true (command py_int l) w) (fun l => command py_int l = A_exit None) again ls w w2 z <->
  console world py_int perform spawn true again ls w = (w2, z).
Proof. exact session_run. Qed.
Print Assumptions C116_terminal.

(** Lines that are wrong fail: [connect] alone, a switch that is set to another word. *)
Theorem C116_connect : forall world py_int perform spawn again w r, console world py_int perform spawn false again (I_line (ustr "connect") :: r) w = (w, 255).
Proof. reflexivity. Qed.
Print Assumptions C116_connect.
Theorem C116_switch : forall world py_int perform spawn again w r s c, s = "autosort"%string \/ s = "autocommit"%string ->
  plain c -> ~ In c [ustr "1"; ustr "on"; ustr "true"; ustr "0"; ustr "off"; ustr "false"] ->
  console world py_int perform spawn false again (I_line (ustr s ++ 32 :: c) :: r) w = (w, 255).
Proof.
  intros world py_int perform spawn again w r s c S P N.
  assert (SW: switch c = None).
  { unfold switch. cbn [In] in N. cbn [existsb]. rewrite !ueqb_ne by (intro; subst; apply N; tauto). reflexivity. }
  assert (W: word (ustr s)) by (destruct S as [->| ->]; (apply word_of; [discriminate|reflexivity])).
  assert (E: command py_int (line_of [ustr s; c]) = A_autosort None \/ command py_int (line_of [ustr s; c]) = A_autocommit None).
  { rewrite command_plain; [|discriminate|constructor; [exact W|constructor; [exact (proj1 P)|constructor]]|right; exact P]. unfold dispatch. cbn [hd].
    pose proof (two_exit (ustr s) c [] W (proj1 P)) as X. unfold no_exit in X. rewrite X. cbn [nth]. rewrite SW. destruct S as [->| ->]; [left|right]; reflexivity. }
  change (ustr s ++ 32 :: c) with (line_of [ustr s; c]). cbn [console]. destruct E as [-> | ->]; reflexivity.
Qed.
Print Assumptions C116_switch.

(** Refuted: a program that [exec] runs may fail, whatever its status the script goes on; and a command that raises EOFError ends the
    script with status 0, the lines after it are not run. *)
Theorem C116_exec_refuted : forall world py_int perform spawn again w r,
  console world py_int perform spawn false again (I_line (ustr "exec false") :: r) w =
  console world py_int perform spawn false false r (fst (spawn [ustr "false"] w)).
Proof. intros. reflexivity. Qed.
Print Assumptions C116_exec_refuted.
Theorem C116_eof_refuted : forall world py_int perform spawn again w r w1, perform (A_eval false (ustr "load()")) w = (w1, E_eof) ->
  console world py_int perform spawn false again (I_line (ustr "load()") :: r) w = (w1, 0).
Proof. intros world py_int perform spawn again w r w1 E. cbn [console]. change (command py_int (ustr "load()")) with (A_eval false (ustr "load()")). cbn [act]. rewrite E. reflexivity. Qed.
Print Assumptions C116_eof_refuted.

Definition counts (a : action) (n : Z) : Z * ends := match a with A_eval _ [98; 97; 100] => (n, E_fails) | A_eval _ _ => (n + 1, E_fine) | _ => (n, E_fine) end.
Example C116_sample : (forall a w, match snd (counts a w) with E_eof | E_exit _ => False | _ => True end) /\
  console Z (fun _ => None) counts (fun _ n => (n, 1)) false false (map I_line (map ustr ["one"; "# two"; "exec false"; "three"; "bad"; "four"]%string)) 0 = (2, 255) /\
  console Z (fun _ => None) counts (fun _ n => (n, 1)) true false (map I_line (map ustr ["one"; "bad"; "two"; "quit"; "three"]%string)) 0 = (2, 0) /\
  console Z (fun _ => None) counts (fun _ n => (n, 1)) true false [I_interrupt; I_line (ustr "one"); I_interrupt; I_interrupt; I_line (ustr "two")] 0 = (1, 0).
Proof.
  split; [|repeat split; vm_compute; reflexivity]. intros a w. destruct a; try exact I. cbn [counts].
  repeat match goal with |- context [match ?x with _ => _ end] => is_var x; destruct x; try exact I end.
Qed.

(** * C117 *)

(** Completion, asked for a text from 0 on: the words that begin with it, in order, then nothing. *)
Theorem C117_words : forall words last text, 
  let shown := fst (complete words last text 0) in
  (forall k, complete words (fst (complete words last text 0)) text k = (shown, nth_error shown k)) /\
  (forall w, In w shown <-> In w words /\ exists r, w = text ++ r) /\
  (forall a b c, words = a ++ b ++ c -> (exists r, b = [text ++ r]) -> exists l r, shown = l ++ b ++ r /\ l = fst (complete a [] text 0) /\ r = fst (complete c [] text 0)).
Proof.
  intros words last text shown. assert (S: shown = found words text) by reflexivity. split; [|split].
  - intro k. destruct k; reflexivity.
  - intro w. rewrite S. unfold found. rewrite filter_In, starts_found. tauto.
  - intros a b c -> [r ->]. exists (found a text), (found c text). rewrite S. unfold found. rewrite !filter_app. split; [|split; reflexivity].
    f_equal. cbn [filter app]. replace (ueqb (firstn (length text) (text ++ r)) text) with true; [reflexivity|]. symmetry. apply starts_found. exists r. reflexivity.
Qed.
Print Assumptions C117_words.

(** The words of a client are the methods the server lists, but those of [system]. *)
Theorem C117_methods : forall client methods m,
  In (client ++ 46 :: m) (method_words client methods) <-> In m methods /\ m <> ustr "system" /\ forall r, m <> ustr "system." ++ r.
Proof.
  intros client methods m. unfold method_words. rewrite in_map_iff. 
  assert (B: forall s, negb (ueqb (before 46 s) (ustr "system")) = true <-> s <> ustr "system" /\ forall r, s <> ustr "system." ++ r).
  { intro s. rewrite negb_true_iff. split.
    - intro E. split; [intros ->; discriminate E|intros r ->; discriminate E].
    - intros [N1 N2]. destruct (ueqb (before 46 s) (ustr "system")) eqn:E; [|reflexivity]. exfalso. apply ueqb_eq in E.
      assert (F: s = before 46 s \/ exists r, s = before 46 s ++ 46 :: r).
      { clear. induction s as [|c s IH]; [left; reflexivity|]. cbn [before]. destruct (Z.eqb_spec c 46) as [->|_]; [right; exists s; reflexivity|].
        destruct IH as [IH|[r IH]]; [left; cbn; f_equal; exact IH|right; exists r; cbn; f_equal; exact IH]. }
      rewrite E in F. destruct F as [F|[r F]]; [contradiction|]. apply (N2 r). rewrite F. reflexivity. }
  split.
  - intros (x & E & I). apply filter_In in I. apply app_inv_head in E. injection E as ->. destruct I as [I H]. apply B in H. tauto.
  - intros (I & H). exists m. split; [reflexivity|]. apply filter_In. split; [exact I|]. apply B. exact H.
Qed.
Print Assumptions C117_methods.

Example C117_sample : let words := ustr "help" :: method_words (ustr "client") [ustr "user.get"; ustr "system.listMethods"; ustr "user.set"] in
  fst (complete words [] (ustr "client.user") 0) = [ustr "client.user.get"; ustr "client.user.set"] /\
  snd (complete words (fst (complete words [] (ustr "client.user") 0)) (ustr "client.user") 1) = Some (ustr "client.user.set").
Proof. cbv zeta. split; reflexivity. Qed.
