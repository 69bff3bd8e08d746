(** Model of src/freerun/sfptpd_freerun_module.c.

    A loop or recursion that may not end takes fuel; [None] is no answer with that fuel, so a call
    returns iff some fuel gives Some.  A failed assertion is None as well.  Stratum X is the highest
    number; holdover and accuracy of clocks are finite (src/sfptpd_clock.c:70-90), so the INFINITY of
    the empty result never decides anything that [None] does not. *)
Require Import ZArith QArith List Bool.
Require Import Verif.Base Verif.TimeSpec Verif.TimeModel Verif.ListLib Verif.FrnSpec.
Import ListNotations.
Open Scope Z_scope.

(** sfptpd_link_by_if_index, src/sfptpd_link.c:127-146: the last match. *)
Definition by_index (t : list link) (i : Z) : option link :=
  fold_left (fun acc l => if l_index l =? i then Some l else acc) t None.
(** strncmp (.., IF_NAMESIZE) == 0 of strings that end. *)
Definition same_name (a b : list Z) : bool := if list_eq_dec Z.eq_dec (firstn 16 a) (firstn 16 b) then true else false.
(** sfptpd_link_by_name, src/sfptpd_link.c:106-125. *)
Definition by_name (t : list link) (n : list Z) : option link :=
  fold_left (fun acc l => if same_name (l_name l) n then Some l else acc) t None.

Section World.
Variable iface : Z -> option (option clk).
Variable specs : clk -> spec.

(** The loop resolving VLANs, lines 315-327: if the inner link is not found the loop goes on with the
    same link. *)
Fixpoint resolve (n : nat) (t : list link) (l : link) : option link :=
  match n with
  | O => None
  | S n => if l_vlan l then match by_index t (l_inner l) with None => resolve n t l | Some o => resolve n t o end
           else Some l
  end.
(** The comparison, lines 361-370. *)
Definition beats (c b : spec) : bool :=
  negb (Qle_bool (s_hold b) (s_hold c)) ||
  (Qeq_bool (s_hold c) (s_hold b) && negb (Qle_bool (s_acc b) (s_acc c))) ||
  (Qeq_bool (s_hold c) (s_hold b) && Qeq_bool (s_acc c) (s_acc b) && (s_strat c <? s_strat b)).
Definition keep (best cand : option (link * clk)) : option (link * clk) :=
  match cand with
  | None => best
  | Some c => match best with
              | None => cand
              | Some b => if beats (specs (snd c)) (specs (snd b)) then cand else best
              end
  end.
(** The loop over the rows, lines 351-376, [search] being the recursive call. *)
Fixpoint rows (search : link -> option (option (link * clk))) (i : Z) (t : list link) (best : option (link * clk)) : option (option (link * clk)) :=
  match t with
  | [] => Some best
  | o :: r => if l_master o =? i then do c <- search o; rows search i r (keep best c) else rows search i r best
  end.
(** freerun_find_physical_link, lines 300-382, of a link found. *)
Fixpoint find (n : nat) (t : list link) (l : link) : option (option (link * clk)) :=
  match n with
  | O => None
  | S n =>
      do l1 <- resolve n t l;
      match iface (l_index l1) with
      | Some (Some c) => if (c =? SYSTEM)%nat then rows (find n t) (l_index l1) t None else Some (Some (l1, c))
      | _ => rows (find n t) (l_index l1) t None
      end
  end.

(** Instances: configuration, control flags, clock (lines 54-70). *)
Record inst := mkI { i_conf : conf; i_flags : Z; i_clock : option clk }.
Definition EINVAL := 22. Definition ENODEV := 19. Definition EBUSY := 16.
(** The clock an instance asks for, lines 398-413; errors. *)
Definition wanted (n : nat) (t : list link) (c : conf) : option (Z + clk) :=
  if list_eq_dec Z.eq_dec (c_name c) sys_name then Some (inr SYSTEM) else
  match c_name c with
  | [] => Some (inl EINVAL)
  | _ => match by_name t (c_name c) with
         | None => Some (inl ENODEV)
         | Some l => do r <- find n t l; Some (match r with None => inl ENODEV | Some (_, k) => inr k end)
         end
  end.
Definition uses (k : clk) (i : inst) : bool := match i_clock i with Some x => (x =? k)%nat | None => false end.
(** freerun_select_clock, lines 385-459; [set] is what setting a clock from the system clock returns
    (0 at once for the system clock itself, src/sfptpd_clock.c:2154-2157). *)
Definition select (set : clk -> Z) (n : nat) (t : list link) (all : list inst) (i : inst) : option (inst * Z) :=
  do w <- wanted n t (i_conf i);
  match w with
  | inl e => Some (i, e)
  | inr k => if existsb (uses k) all then Some (i, EBUSY)
             else Some (mkI (i_conf i) (2 ^ TIMESTAMPS) (Some k), if (k =? SYSTEM)%nat then 0 else set k)
  end.
(** freerun_on_startup, lines 600-617: instances before and behind the one being started. *)
Fixpoint start (set : clk -> Z) (n : nat) (t : list link) (done todo : list inst) : option (list inst * Z) :=
  match todo with
  | [] => Some (done, 0)
  | i :: r => do x <- select set n t (done ++ todo) i;
              if snd x =? 0 then start set n t (done ++ [fst x]) r else Some (done ++ fst x :: r, snd x)
  end.
(** freerun_create_instances, lines 246-289. *)
Definition create (cs : list conf) : list inst := map (fun c => mkI c 0 None) cs.
Definition startup (set : clk -> Z) (n : nat) (t : list link) (cs : list conf) := start set n t [] (create cs).
End World.

(** freerun_on_get_status, lines 462-492. *)
Definition status_of (i : inst) : option status :=
  do k <- i_clock i;
  Some (mkStatus Slave 0 k null_time (c_prio (i_conf i)) (c_class (i_conf i)) (c_acc (i_conf i)) false 0 (c_time (i_conf i)) (c_freq (i_conf i))).
(** freerun_on_message, lines 632-693, with the handlers of lines 495-597; the handle is that of an
    instance of the list, or the assertion fails. *)
Definition step (l : list inst) (o : op) : option (list inst * list out) :=
  match o with
  | GetStatus n => do i <- nth_error l n; do s <- status_of i; Some (l, [Reply s])
  | Control n mask flags =>
      do i <- nth_error l n;
      Some (set_nth n (mkI (i_conf i) (Z.lor (Z.ldiff (i_flags i) mask) (Z.land flags mask)) (i_clock i)) l, [])
  | StepClock n d => do i <- nth_error l n; do k <- i_clock i; Some (l, [Adjust k d])
  | SaveState => if forallb (fun i => match i_clock i with Some _ => true | None => false end) l
                 then Some (l, map (fun i => State (match i_clock i with Some k => k | None => SYSTEM end) (i_flags i)) l) else None
  | Topology n => do i <- nth_error l n; do k <- i_clock i;
                  if Z.testbit (i_flags i) SELECTED then Some (l, [Drawn k]) else None
  | Other_message => Some (l, [])
  end.
Fixpoint run (l : list inst) (ops : list op) : option (list inst * list (op * list out)) :=
  match ops with
  | [] => Some (l, [])
  | o :: r => do x <- step l o; do y <- run (fst x) r; Some (fst y, (o, snd x) :: snd y)
  end.

(** parse_clock_class, lines 98-116, of the word given. *)
Definition parse_class (w : list Z) (old : class) : Z * class :=
  if list_eq_dec Z.eq_dec w [108; 111; 99; 107; 101; 100] then (0, Locked)
  else if list_eq_dec Z.eq_dec w [104; 111; 108; 100; 111; 118; 101; 114] then (0, Holdover)
  else if list_eq_dec Z.eq_dec w [102; 114; 101; 101; 114; 117; 110; 110; 105; 110; 103] then (0, Freerunning)
  else (EINVAL, old).
(** parse_clock_traceability, lines 138-159: result, time, frequency. *)
Definition trace_word (acc : Z * bool * bool) (w : list Z) : Z * bool * bool :=
  let '(rc, t, f) := acc in
  if list_eq_dec Z.eq_dec w [116; 105; 109; 101] then (rc, true, f)
  else if list_eq_dec Z.eq_dec w [102; 114; 101; 113] then (rc, t, true)
  else (EINVAL, t, f).
Definition parse_trace (ws : list (list Z)) : Z * bool * bool := fold_left trace_word ws (0, false, false).
