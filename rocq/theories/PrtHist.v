(** Vocabulary over histories of a PTP port, for C43, C44, C45, C56 and C57. *)
Require Import ZArith List Bool.
Import ListNotations.
From Verif Require Import Base TimeSpec TimeModel PrtSpec PrtModel.
Open Scope Z_scope.

(** A port that waits for nothing, has kept nothing and is expecting no transmit timestamp. *)
Definition fresh (p : port) : Prop :=
  waiting (syn_of p) = false /\ cached (syn_of p) = None /\
  tx_pending (del_of p) = false /\ rx_pending (del_of p) = false /\ d_tk (del_of p) = None /\
  0 <= d_seq (del_of p) < 65536 /\
  p_tk (peer_of p) = None /\ want_resp (peer_of p) = false /\ want_follow (peer_of p) = false /\
  0 <= p_seq (peer_of p) < 65536 /\
  s_tk (mast_of p) = None /\ r_tk (mast_of p) = None /\ 0 <= s_seq (mast_of p) < 65536.

(** [P] holds of every operation of [h2], and of the port it happens to, when the port was [p0] before
    [h1]. *)
Definition during (c : cfg) (p0 : port) (P : port -> op -> Prop) (h1 h2 : list op) : Prop :=
  forall a o b pa, h2 = a ++ o :: b -> run c (h1 ++ a) p0 = Some pa -> P pa o.

(** A Sync the port takes notice of: from its parent, complete, with a timestamp, while it is a slave. *)
Definition takes (p : port) (m : sync_msg) (rx : option ts) : Prop :=
  (pst p = Slave \/ pst p = Uncalibrated) /\ sy_src m = parent p /\ 44 <= sy_len m /\ rx <> None.
Definition no_sync_taken (p : port) (o : op) : Prop := match o with OSync m rx => ~ takes p m rx | _ => True end.

Definition is_m2s (o : out) : bool := match o with GiveM2S _ _ _ => true | _ => false end.
Definition is_s2m (o : out) : bool := match o with GiveS2M _ _ _ => true | _ => false end.
Definition is_p2p (o : out) : bool := match o with GiveP2P _ _ _ _ _ => true | _ => false end.
Definition is_follow (o : out) : bool := match o with SendFollow _ _ => true | _ => false end.
Definition is_pfollow (o : out) : bool := match o with SendPFollow _ _ _ => true | _ => false end.
(** The operation does not make the port do anything of the kind [f]. *)
Definition without (c : cfg) (f : out -> bool) (p : port) (o : op) : Prop :=
  forall p' os, step c o p = Some (p', os) -> existsb f os = false.

(** A request, or a Sync, that was really sent. *)
Definition not_sent_peer (o : op) : Prop := match o with OAskPeer (Sent _) => False | _ => True end.
Definition not_sent_sync (o : op) : Prop := match o with OSendSync (Sent _) => False | _ => True end.
Definition not_ask (o : op) : Prop := is_ask_delay o = false.
(** A peer delay request the port answers, or tries to. *)
Definition answers (p : port) (m : pq_msg) (rx : option ts) : Prop :=
  mech p = P2P /\ (pst p = Listening \/ pst p = Slave \/ pst p = Master \/ pst p = Passive) /\ 54 <= pq_len m /\ rx <> None.
Definition not_answered (p : port) (o : op) : Prop := match o with OPReq m rx (Sent _) => ~ answers p m rx | _ => True end.
Definition no_failed_answer (p : port) (o : op) : Prop :=
  match o with OPReq _ _ (Sent _) => True | OPReq m rx _ => ~ answers p m rx | _ => True end.

(** Operations that are neither Sync nor FollowUp messages nor changes of state. *)
Definition leaves_sync (o : op) : Prop :=
  match o with OSync _ _ | OFollow _ | OBest _ _ | OState _ => False | _ => True end.

(** What a port gives and sends over a whole history. *)
Fixpoint outs (c : cfg) (h : list op) (p : port) : option (list out) :=
  match h with
  | [] => Some []
  | o :: h' => do r <- step c o p; do os <- outs c h' (fst r); Some (snd r ++ os)
  end.
