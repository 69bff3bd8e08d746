(** Specification vocabulary for the clocks of the machine (C74): the system clock and one clock
    for each network adapter. *)
Require Import ZArith QArith List String Bool.
From Verif Require Import TimeSpec.
Import ListNotations.
Open Scope Z_scope.

(** What a clock is known by: [None] is the system clock, [Some n] the clock of adapter [n]. *)
Definition key := option Z.

(** The kind of an adapter, and of a clock. *)
Inductive kind := SFC | XNET | OTHER.

(** The configuration as far as clocks are concerned. *)
Record config := mkConfig {
  g_no_adjust : bool;            (** clock-control no-adjust *)
  g_readonly : list string;      (** clock-readonly *)
  g_all : bool;                  (** every clock is disciplined *)
  g_list : list string;          (** clock-list *)
  g_non_sfc : bool;              (** non-solarflare-nics *)
  g_avoid_efx : bool;
  g_rtc : bool;                  (** rtc-adjust *)
  g_persistent : bool;           (** persistent-clock-correction *)
  g_always : bool;               (** initial-clock-correction always *)
  g_limit : Q;                   (** limit-freq-adj *)
  g_legacy : bool;               (** legacy-clockids *)
  g_unique : list Z }.           (** unique-clockid: eight bytes *)

(** An active interface: its index, its adapter, its kind, whether it has hardware timestamps,
    whether its clock is a PHC device and which one, its MAC address. *)
Record intf := mkIntf {
  i_index : Z; i_nic : Z; i_kind : kind; i_hw : bool; i_phc : bool; i_dev : Z; i_efx : bool;
  i_mac : list Z }.

(** What is done to clocks, seen from outside: a step by an offset, a frequency in ppb, the
    status word of the system clock, the sync status of an adapter, the deletion of a saved
    correction, a sample of the statistic "sync-failures", a warning about a failed comparison,
    the end of the daemon. *)
Inductive ev :=
| Step (k : key) (t : ts) | Freq (k : key) (ppb : Q) | Status (flags : Z)
| SyncStatus (k : key) (in_sync : bool) (timeout : Z)
| Unlink (k : key) | SyncFail (k : key) (n : Z) | Warn (k : key) | Exit (rc : Z).
(** The events that write to the clock [k]. *)
Definition writes_to (k : key) (e : ev) : Prop :=
  match e with
  | Step k' _ | Freq k' _ | SyncStatus k' _ _ => k' = k
  | Status _ => k = None
  | _ => False
  end.

(** Status bits of the kernel: STA_INS, STA_DEL, STA_UNSYNC. *)
Definition INS := 16.
Definition DEL := 32.
Definition UNSYNC := 64.
(** Leap seconds that can be scheduled. *)
Inductive leap := L_NONE | L_61 | L_59.

(** Errors named in statements. *)
Definition ENOENT := 2.
Definition EAGAIN := 11.
Definition ENODEV := 19.
Definition EINVAL := 22.
Definition ERANGE := 34.
Definition ENOSYS := 38.
Definition ENODATA := 61.
Definition EOPNOTSUPP := 95.
Definition ENOTRECOVERABLE := 131.

(** A device time before this second has never been set (five years after the epoch). *)
Definition VALID := 157680000.

(** The identity of a clock from a MAC address of six bytes: the address, then the last two
    configured bytes; or the address with ff, fe in the middle. *)
Definition identity (legacy : bool) (unique mac : list Z) : list Z :=
  if legacy then firstn 3 mac ++ [255; 254] ++ skipn 3 mac else mac ++ skipn 6 unique.
