(** Model of src/ptp/sfptpd_ptp_monitor.c.  [None] is undefined behaviour.  A table of the database
    is the list of its records in the order of insertion: lookups here have at most one match, and
    what is output is in the order of a field, except for the nodes, which are never deleted.
    Port identities are the numbers whose order is that of memcmp(3) on them.  Left out: the
    formatting of the output, getnameinfo(3). *)
Require Import ZArith List Bool.
From Verif Require Import Base RmnSpec.
Import ListNotations.
Open Scope Z_scope.

(** struct sfptpd_ptp_monitor, lines 45-64 *)
Record mon := mkMon { m_nodes : list node; m_rx : list rx; m_tx : list tx; m_st : list status; m_latest : list status; c_rx : Z; c_tx : Z; c_st : Z }.
Definition set_nodes (m : mon) v := mkMon v (m_rx m) (m_tx m) (m_st m) (m_latest m) (c_rx m) (c_tx m) (c_st m).
Definition set_rx (m : mon) v c := mkMon (m_nodes m) v (m_tx m) (m_st m) (m_latest m) c (c_tx m) (c_st m).
Definition set_tx (m : mon) v c := mkMon (m_nodes m) (m_rx m) v (m_st m) (m_latest m) (c_rx m) c (c_st m).
Definition set_st (m : mon) v w c := mkMon (m_nodes m) (m_rx m) (m_tx m) v w (c_rx m) (c_tx m) c.
(** sfptpd_ptp_monitor_create, lines 257-274 *)
Definition empty : mon := mkMon [] [] [] [] [] 0 0 0.
(** counter++ on an int *)
Definition bump (c : Z) : option Z := if c =? 2147483647 then None else Some (c + 1).

(** monitor_register_node, lines 302-331 *)
Definition register (s : stats) (m : mon) : mon :=
  if existsb (fun n => n_port n =? s_port s) (m_nodes m) then m else
  set_nodes m (m_nodes m ++ [mkNode (s_port s) (s_addr s) (s_dom s)]).

(** sfptpd_db_table_find by three fields; the position of the record *)
Fixpoint position {A} (f : A -> bool) (l : list A) : option nat :=
  match l with [] => None | a :: r => if f a then Some O else option_map Datatypes.S (position f r) end.
(** sfptpd_db_record_update *)
Fixpoint replace {A} (i : nat) (v : A) (l : list A) : list A :=
  match l, i with [], _ => [] | _ :: r, O => v :: r | a :: r, Datatypes.S i => a :: replace i v r end.
(** Setting the data and its flag, lines 391-393 and 424-426 *)
Definition fill (timing : bool) (e : elt) (x : rx) : rx :=
  if timing then mkRx (x_port x) (x_ref x) (x_seq x) (x_id x) (x_time x) (Some (e_data e)) (x_comp x)
  else mkRx (x_port x) (x_ref x) (x_seq x) (x_id x) (x_time x) (x_timing x) (Some (e_data e)).
(** monitor_obtain_rx_event_record, lines 334-363, with the updates of its callers, lines 380-397
    and 413-430.  A new record is inserted from &event where event is a pointer: what is copied
    is the pointer and what happens to be behind it, [over], if that can be read at all. *)
Definition rx_one (over : option rx) (timing : bool) (s : stats) (e : elt) (m : mon) : option mon :=
  match position (fun x => (x_port x =? s_port s) && (x_ref x =? s_ref s) && (x_seq x =? e_seq e)) (m_rx m) with
  | Some i =>
      do x <- nth_error (m_rx m) i;
      Some (set_rx m (replace i (fill timing e x) (m_rx m)) (c_rx m))
  | None =>
      let x := mkRx (s_port s) (s_ref s) (e_seq e) (c_rx m) (e_now e) None None in
      do c <- bump (c_rx m);
      do junk <- over;
      let m := set_rx m (m_rx m ++ [junk]) c in
      Some (set_rx m (replace (List.length (m_rx m) - 1) (fill timing e x) (m_rx m)) (c_rx m))
  end.
Fixpoint rx_all (over : option rx) (timing : bool) (s : stats) (l : list elt) (m : mon) : option mon :=
  match l with [] => Some m | e :: r => do m <- rx_one over timing s e m; rx_all over timing s r m end.
(** sfptpd_ptp_monitor_log_tx_timestamp, lines 433-461 *)
Fixpoint tx_all (s : stats) (type : Z) (l : list elt) (m : mon) : option mon :=
  match l with
  | [] => Some m
  | e :: r =>
      do c <- bump (c_tx m);
      tx_all s type r (set_tx m (m_tx m ++ [mkTx (s_port s) (s_ref s) (e_seq e) (c_tx m) (e_now e) (e_data e) type]) c)
  end.
(** sfptpd_ptp_monitor_update_slave_status, lines 464-498: the record is cleared first and its
    reference port is not set. *)
Definition status_one (s : stats) (data gm now : Z) (m : mon) : option mon :=
  do c <- bump (c_st m);
  let z := mkSt (s_port s) 0 (c_st m) now data gm in
  match position (fun x => z_port x =? s_port s) (m_latest m) with
  | Some i => Some (set_st m (m_st m ++ [z]) (replace i z (m_latest m)) c)
  | None => Some (set_st m (m_st m ++ [z]) (m_latest m ++ [z]) c)
  end.

(** SFPTPD_DB_SEL_ORDER_BY of a query or of foreach *)
Fixpoint insert {A} (f : A -> Z) (a : A) (l : list A) : list A :=
  match l with [] => [a] | b :: r => if f a <=? f b then a :: l else b :: insert f a r end.
Definition sort {A} (f : A -> Z) (l : list A) : list A := fold_right (insert f) [] l.
(** monitor_output_text, lines 602-746: the nodes, for each the events received and sent, the
    statuses and the latest ones *)
Record text := mkText { o_nodes : list (node * list rx * list tx); o_log : list status; o_latest : list status }.
Definition output_text (m : mon) : text :=
  mkText (map (fun n => (n, sort x_id (filter (fun x => x_port x =? n_port n) (m_rx m)), sort t_id (filter (fun x => t_port x =? n_port n) (m_tx m)))) (sort n_port (m_nodes m)))
    (sort z_id (m_st m)) (sort z_id (m_latest m)).
(** monitor_output_json, lines 893-910 *)
Record json := mkJson { j_nodes : list node; j_rx : list rx; j_tx : list tx; j_st : list status }.
Definition output_json (m : mon) : json := mkJson (m_nodes m) (sort x_id (m_rx m)) (sort t_id (m_tx m)) (sort z_id (m_st m)).
(** The grandmaster in the line of a status in JSON, lines 871 and 881, and in the text, line 577 *)
Definition json_gm (z : status) : Z := z_ref z.
Definition text_gm (z : status) : Z := z_gm z.

(** One operation: lines 366-498 and sfptpd_ptp_monitor_flush, lines 913-926 *)
Definition step (over : option rx) (o : op) (m : mon) : option (mon * option text * option json) :=
  match o with
  | Timing s l => do m <- rx_all over true s l (register s m); Some (m, None, None)
  | Computed s l => do m <- rx_all over false s l (register s m); Some (m, None, None)
  | Sent s t l => do m <- tx_all s t l (register s m); Some (m, None, None)
  | Status s d g now => do m <- status_one s d g now (register s m); Some (m, None, None)
  | Flush t j =>
      Some (mkMon (m_nodes m) [] [] [] (m_latest m) (c_rx m) (c_tx m) (c_st m),
            if t then Some (output_text m) else None, if j then Some (output_json m) else None)
  end.
Fixpoint run (over : option rx) (l : list op) (m : mon) : option (mon * list json) :=
  match l with
  | [] => Some (m, [])
  | o :: r =>
      do x <- step over o m;
      let '(m, _, j) := x in
      do y <- run over r m;
      Some (fst y, match j with Some j => j :: snd y | None => snd y end)
  end.
