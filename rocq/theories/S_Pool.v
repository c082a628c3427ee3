(** What a user may expect of pools and clones. *)
From Verif Require Import Base Value M_TreeBuilder M_Pool.

(** Pointer [r] is a value that reads as the tree [v] and consists of objects with property [P] and buffers with
    property [Q]. *)
Fixpoint tree (h : heap) (b : list (option bytes)) (P Q : nat -> Prop) (v : value) (r : ref) {struct v} : Prop :=
  match v with
  | VNull => r = RNull
  | VStringView s => exists n k, r = RObj n /\ P n /\ cell h n = Some (NView k) /\ Q k /\ nth_error b k = Some (Some s)
  | VSecret x => exists n t, r = RObj n /\ P n /\ cell h n = Some (NSecret t) /\ tree h b P Q x t
  | VArray l => exists n ts, r = RObj n /\ P n /\ cell h n = Some (NArray ts) /\
      (fix all (l : list value) (ts : list ref) : Prop :=
         match l, ts with
         | [], [] => True
         | x :: l', t :: ts' => tree h b P Q x t /\ all l' ts'
         | _, _ => False
         end) l ts
  | VStruct m => exists n ts, r = RObj n /\ P n /\ cell h n = Some (NStruct ts) /\
      (fix all (m : list (bytes * value)) (ts : list (bytes * ref)) : Prop :=
         match m, ts with
         | [], [] => True
         | (k, x) :: m', (k', t) :: ts' => k = k' /\ tree h b P Q x t /\ all m' ts'
         | _, _ => False
         end) m ts
  | _ => exists n, r = RObj n /\ P n /\ cell h n = Some (NLeaf v)
  end.

(** A value reads as [v]. *)
Definition reads (s : pools) (v : value) (r : ref) : Prop := tree (st_heap s) (st_buffers s) (fun _ => True) (fun _ => True) v r.
(** So, and it consists of objects in [P] and buffers in [Q]. *)
Definition reads_with (s : pools) (P Q : nat -> Prop) (v : value) (r : ref) : Prop := tree (st_heap s) (st_buffers s) P Q v r.

(** The objects made between two states (they are numbered in order). *)
Definition made_between (s s' : pools) (n : nat) : Prop := (length (st_heap s) <= n < length (st_heap s'))%nat.
(** Object [n] belongs to pool [p]. *)
Definition belongs (s : pools) (p n : nat) : Prop := exists own, storage s p = Some own /\ In n own.
(** An object has been deleted. *)
Definition created (s : pools) (n : nat) : Prop := (n < length (st_heap s))%nat.
Definition deleted (s : pools) (n : nat) : Prop := created s n /\ cell (st_heap s) n = None.
(** No pool has anything any more. *)
Definition all_gone (s : pools) : Prop := forall p own, storage s p = Some own -> own = [].

(** A state a program can reach. *)
Definition reached (val : option mktime_t) (fuel : nat) (l : list op) (s : pools) : Prop := run val fuel init_pools l = Some (Ok s).

(** No pool that owns something is overwritten by moving another one (or itself) onto it, and no pool steals from
    itself. *)
Definition fine (s : pools) (o : op) : Prop :=
  match o with
  | Steal p q => p <> q
  | Move_assign p q => p <> q /\ storage s p = Some []
  | _ => True
  end.
Fixpoint careful (val : option mktime_t) (fuel : nat) (s : pools) (l : list op) : Prop :=
  match l with
  | [] => True
  | o :: r => fine s o /\
      match step val fuel s o with
      | Some (Ok (s', _)) => careful val fuel s' r
      | Some (Err _) => careful val fuel s r
      | _ => True
      end
  end.

(** An operation that neither empties, moves or destroys pool [p] nor changes the objects in [P] or drops the buffers in
    [Q]. *)
Definition leaves_alone (p : nat) (P Q : nat -> Prop) (o : op) : Prop :=
  match o with
  | Free x | Destroy x | Move_construct x => x <> p
  | Steal _ y => y <> p
  | Move_assign x y => x <> p /\ y <> p
  | Append a _ | Set_member a _ _ => ~ P a
  | Drop_buffer b => ~ Q b
  | New_pool | Create _ _ | Clone _ _ | New_buffer _ => True
  end.

(** A date agrees with the host's calendar. *)
Definition agrees (mk : mktime_t) (d : datetime) : Prop :=
  exists w, mk (dt_year d) (dt_month d) (dt_day d) (dt_hour d) (dt_min d) (dt_sec d) = (dt_unix d, w) /\ dt_wday d = s8 w.
(** Every date of a value agrees with the calendar, if dates are validated. *)
Fixpoint dates_agree (val : option mktime_t) (v : value) : Prop :=
  match v with
  | VDateTime d => forall mk, val = Some mk -> agrees mk d
  | VStruct m => (fix all (m : list (bytes * value)) : Prop := match m with [] => True | (_, x) :: r => dates_agree val x /\ all r end) m
  | VArray l => (fix all (l : list value) : Prop := match l with [] => True | x :: r => dates_agree val x /\ all r end) l
  | VSecret x => dates_agree val x
  | _ => True
  end.
(** A value without string views. *)
Fixpoint no_views (v : value) : Prop :=
  match v with
  | VStringView _ => False
  | VStruct m => (fix all (m : list (bytes * value)) : Prop := match m with [] => True | (_, x) :: r => no_views x /\ all r end) m
  | VArray l => (fix all (l : list value) : Prop := match l with [] => True | x :: r => no_views x /\ all r end) l
  | VSecret x => no_views x
  | _ => True
  end.
