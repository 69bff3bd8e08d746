(** Model of the privileged helper, src/priv_helper/sfptpd_priv_helper.c, and of its client,
    src/sfptpd_priv.c, with crny_connect (src/crny/sfptpd_crny_module.c:1289-1320) and
    sfptpd_crny_helper_connect (src/crny/sfptpd_crny_helper.c:56-157). *)
Require Import ZArith List Bool String.
Require Import Verif.Base Verif.ListLib Verif.CevSpec Verif.CevModel Verif.PrvSpec.
Import ListNotations.
Open Scope Z_scope.

(** permitted_devices, sfptpd_priv_helper.c:36; the pattern is anchored at both ends and
    compiled without REG_NEWLINE. *)
Definition isdigit (c : Z) : bool := (48 <=? c) && (c <=? 57).
Definition digits (l : list Z) : bool :=
  match l with [] => false | _ => forallb isdigit l end.
Definition permitted (p : list Z) : bool :=
  match strip_prefix (txt "/dev/") p with
  | None => false
  | Some r =>
      match strip_prefix (txt "pps") r with
      | Some d => digits d
      | None => match strip_prefix (txt "ptp") r with Some d => digits d | None => false end
      end
  end.

(** sfptpd_crny_helper_connect.  [fail n]: the error of the n-th system call (socket, three
    fcntl, bind, chmod, connect), [None] if it succeeds; [sock] is the descriptor.  The results: rc, *sock_ret, *failing_step,
    whether the socket is still open.  unlink(2) of the client path is left out. *)
Definition SUN_PATH : nat := 108.
Definition cname (n : nat) : list Z :=
  nth n [txt "socket"; txt "fcntl(F_GETFD)"; txt "fcntl(F_SETFD)"; txt "fcntl(F_SETFL)";
         txt "bind"; txt "chmod"; txt "connect"] [].

Fixpoint first_failure (fail : nat -> option Z) (n count : nat) : option (nat * Z) :=
  match count with
  | O => None
  | S c => match fail n with Some e => Some (n, e) | None => first_failure fail (S n) c end
  end.

Definition helper_connect (client server : list Z) (sock : Z) (fail : nat -> option Z)
  : Z * Z * list Z * bool :=
  if (SUN_PATH <=? List.length client)%nat then (ENOMEM, -1, txt "snprintf1", false)
  else if (SUN_PATH <=? List.length server)%nat then (ENOMEM, -1, txt "snprintf2", false)
  else match first_failure fail 0 6 with
       | Some (n, e) => (e, -1, cname n, false)
       | None =>
           match fail 6%nat with
           | None => (0, sock, txt "success", true)
           | Some e => if e =? EINPROGRESS then (e, sock, txt "success", true)
                       else (e, -1, cname 6, false)
           end
       end.

Definition SERVER_PATH := txt "/var/run/chrony/chronyd.sock".

(** strnlen(buf, sizeof buf) != sizeof buf, and the string. *)
Definition path_of (buf : list Z) : option (list Z) := cstr buf.

(** One request served, sfptpd_priv_helper.c:86-148 and 183-236: the response, the descriptor
    sent with it, the privileged actions, the descriptors of the helper that stay open,
    whether it goes on.  [client]: the path op_open_chrony makes from the process number.
    Failures of sendmsg(2) are ignored by the code and left out. *)
Definition serve (client : list Z) (o : os) (r : req) : resp * option Z * list act * list Z * bool :=
  match r with
  | Sync | Unknown _ => (mkResp KOk 0 [], None, [], [], true)
  | Close => (mkResp KOk 0 [], None, [], [], false)
  | OpenChrony =>
      let '(rc, sock, step, open) := helper_connect client SERVER_PATH (o_sock o) (o_fail o) in
      let fd := if rc =? 0 then sock else -1 in
      (mkResp KChrony rc step, (if fd =? -1 then None else Some fd), [Connected],
       (* closed at the end of the pass if it was sent *)
       (if open && (fd =? -1) then [sock] else []), true)
  | OpenDev buf =>
      match path_of buf with
      | None => (mkResp KDev ENAMETOOLONG [], None, [], [], true)
      | Some p =>
          if negb (permitted p) then (mkResp KDev EPERM [], None, [], [], true)
          else match o_open o p with
               | inl e => (mkResp KDev e [], None, [Opened p], [], true)
               | inr fd => (mkResp KDev 0 [], Some fd, [Opened p], [], true)
               end
      end
  | Control op => (mkResp KControl (o_ctl o op) [], None, [Controlled op], [], true)
  end.

(** server, lines 150-239: the answers, the actions, the descriptors that stay open.  [None]
    is a read of req_msg before anything was received into it in this pass (end of file, or
    an error of recv(2)). *)
Fixpoint server (client : list Z) (l : list input) : option (list reply * list act * list Z) :=
  match l with
  | [] => Some ([], [], [])
  | Interrupted :: l' => server client l'
  | RecvError _ :: _ | EndOfFile :: _ => None
  | Msg r o :: l' =>
      let '(a, fd, acts, fds, running) := serve client o r in
      if running then
        do s <- server client l';
        let '(a', acts', fds') := s in Some ((a, fd) :: a', acts ++ acts', fds ++ fds')
      else Some ([(a, fd)], acts, fds)
  end.

(** sfptpd_priv_rpc, sfptpd_priv.c:137-207: the return value, the response, the descriptors,
    whether the connection is still there.  [want]: returned_fds is not NULL.  The response
    is initialised with zeros by every caller. *)
Definition rpc (conn : bool) (r : req) (ex : req -> exchange) (want : bool) : Z * resp * list Z * bool :=
  let zero := mkResp KOk 0 [] in
  if negb conn then (- ENOTCONN, zero, [], conn)
  else match ex r with
       | NotSent | NotReceived => (- ENOTCONN, zero, [], false)
       | Received rs anc =>
           let rs := match rs with Some x => x | None => zero end in
           if negb want then (0, rs, [], conn)
           else match anc with
                | NoAnc => (0, rs, [], conn)
                | OtherAnc => (- EINVAL, rs, [], conn)
                | Fds l => if (1 <? List.length l)%nat then (- EINVAL, rs, [], conn)
                           else (Z.of_nat (List.length l), rs, l, conn)
                end
       end.

Definition PATH_MAX : nat := 128.
Definition to_buf (p : list Z) : list Z := p ++ repeat 0 (PATH_MAX - List.length p).

(** sfptpd_priv_open_dev, lines 359-385; [direct]: the result of open(2) in the daemon. *)
Definition open_dev (conn : bool) (path : list Z) (ex : req -> exchange) (direct : Z + Z) : Z * bool :=
  if (PATH_MAX <=? List.length path)%nat then (- ENAMETOOLONG, conn)
  else
    let '(rc, rs, fds, conn') := rpc conn (OpenDev (to_buf path)) ex true in
    if 0 <? rc then (nth 0 fds 0, conn')
    else if rc =? 0 then (- r_rc rs, conn')
    else if rc =? - ENOTCONN then (match direct with inr fd => fd | inl e => - e end, conn')
    else (rc, conn').

(** sfptpd_priv_open_chrony, lines 325-357: the return value, and the text stored in the
    caller's buffer failing_step, [None] if nothing is stored: line 341 assigns to the
    parameter. *)
Definition open_chrony (conn : bool) (ex : req -> exchange) (client : list Z) (sock : Z) (fail : nat -> option Z)
  : Z * option (list Z) * bool :=
  let '(rc, rs, fds, conn') := rpc conn OpenChrony ex true in
  if 0 <? rc then (nth 0 fds 0, None, conn')
  else if rc =? 0 then (- r_rc rs, None, conn')
  else if rc =? - ENOTCONN then
    let '(rc1, s, step, _) := helper_connect client SERVER_PATH sock fail in
    ((if rc1 =? 0 then s else - rc1), Some (firstn 15 step), conn')
  else (rc, None, conn').

(** sfptpd_priv_chrony_control, lines 387-404; [direct]: sfptpd_crny_helper_control. *)
Definition chrony_control (conn : bool) (op : cop) (ex : req -> exchange) (direct : cop -> Z) : Z * bool :=
  let '(rc, rs, fds, conn') := rpc conn (Control op) ex true in
  if 0 <=? rc then (- r_rc rs, conn')
  else if rc =? - ENOTCONN then (- direct op, conn')
  else (rc, conn').

(** crny_connect, sfptpd_crny_module.c:1289-1320: the result, the socket now in use, the text
    of the error logged, failure_reported.  [None] is printing the buffer failing_step
    when nothing has been stored in it. *)
Definition crny_connect (r : Z * option (list Z)) (reported : bool) : option (Z * option Z * option (list Z) * bool) :=
  let '(rc0, step) := r in
  let rc := if 0 <=? rc0 then 0 else - rc0 in
  let sock := if 0 <=? rc0 then Some rc0 else None in
  if negb (rc =? 0) && negb (rc =? EINPROGRESS) && negb (rc =? ENOENT) then
    if negb reported then do s <- step; Some (rc, sock, Some s, true)
    else Some (rc, sock, None, true)
  else if rc =? 0 then Some (rc, sock, None, false)
  else Some (rc, sock, None, reported).

(** An exchange with a helper that serves the request; [n] is the number the descriptor gets
    in the daemon. *)
Definition with_helper (client : list Z) (o : os) (n : Z) (r : req) : exchange :=
  let '(a, fd, _, _, _) := serve client o r in
  Received (Some a) (match fd with Some _ => Fds [n] | None => NoAnc end).

(** ** Threads calling sfptpd_priv_rpc at the same time, sfptpd_priv.c:157-186 *)

Inductive pc :=
| Idle
| Entering (r : req)               (* helper_fd was not -1 (line 157); about to lock *)
| Holding (r : req)                (* lock held; about to send *)
| Waiting (r : req)                (* lock held; request sent *)
| Got (r : req) (a : req * resp)   (* lock held; answer read *)
| Returned (r : req) (a : option (req * resp)).   (* [None]: -ENOTCONN *)

(** helper_fd != -1, the owner of the mutex, the two directions of the socket pair, and where
    each thread is.  The answers carry the request they answer: the code does not have
    that. *)
Record sys := mkSys { y_fd : bool; y_lock : option nat; y_req : list req; y_resp : list (req * resp);
                      y_pc : nat -> pc }.

Definition upd (f : nat -> pc) (t : nat) (p : pc) : nat -> pc := fun x => if Nat.eqb x t then p else f x.

(** Events: a failure of send(2) or recvmsg(2), anything else. *)
Inductive event := EFail | EOk.

Inductive step (client : list Z) : event -> sys -> sys -> Prop :=
| st_call t r fd lk q p f : f t = Idle ->
    step client EOk (mkSys fd lk q p f)
      (mkSys fd lk q p (upd f t (if fd then Entering r else Returned r None)))
| st_lock t r fd q p f : f t = Entering r ->
    step client EOk (mkSys fd None q p f) (mkSys fd (Some t) q p (upd f t (Holding r)))
| st_send t r lk q p f : f t = Holding r ->
    step client EOk (mkSys true lk q p f) (mkSys true lk (q ++ [r]) p (upd f t (Waiting r)))
  (* line 166: the function returns without unlocking *)
| st_send_fails t r fd lk q p f : f t = Holding r ->
    step client EFail (mkSys fd lk q p f) (mkSys false lk q p (upd f t (Returned r None)))
| st_answer r fd lk q p f o : 
    step client EOk (mkSys fd lk (r :: q) p f)
      (mkSys fd lk q (p ++ [(r, fst (fst (fst (fst (serve client o r)))))]) f)
| st_recv t r a fd lk q p f : f t = Waiting r ->
    step client EOk (mkSys fd lk q (a :: p) f) (mkSys fd lk q p (upd f t (Got r a)))
| st_unlock t r a fd lk q p f : f t = Got r a ->
    step client EOk (mkSys fd lk q p f) (mkSys fd None q p (upd f t (Returned r (Some a))))
  (* lines 180-185: the lock is released first *)
| st_recv_fails t r fd lk q p f : f t = Waiting r ->
    step client EFail (mkSys fd lk q p f) (mkSys false None q p (upd f t (Returned r None)))
| st_again t r a fd lk q p f : f t = Returned r a ->
    step client EOk (mkSys fd lk q p f) (mkSys fd lk q p (upd f t Idle)).

Inductive runs (client : list Z) : list event -> sys -> sys -> Prop :=
| run_nil s : runs client [] s s
| run_step e es s s1 s2 : step client e s s1 -> runs client es s1 s2 -> runs client (e :: es) s s2.

Definition started : sys := mkSys true None [] [] (fun _ => Idle).
