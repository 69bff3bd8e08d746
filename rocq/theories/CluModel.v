(** Model of the comparison of clocks and the clustering score. *)
Require Import ZArith QArith Qround Qabs List Bool.
From Verif Require Import Base TimeSpec TimeModel FltSpec FltModel CluSpec.
Open Scope Z_scope.

(** sfptpd_clock_compare, src/sfptpd_clock.c:2039-2145: whether it succeeded and the
    difference stored.  Statistics and warnings are left out. *)
Definition clock_compare (k1 k2 : clk) : option (bool * ts) :=
  if k_deleted k1 || k_deleted k2 then Some (false, null_time) else
  if (negb (k_system k1) && negb (k_phc k1)) || (negb (k_system k2) && negb (k_phc k2))
  then Some (false, null_time) else
  if negb (k_system k1) && negb (k_cmp_ok k1) then Some (false, k_cmp k1) else
  let diff := if k_system k1 then null_time else k_cmp k1 in
  if k_system k2 then Some (true, diff) else
  if negb (k_cmp_ok k2) then Some (false, diff) else
  do d <- subtract diff (k_cmp k2); Some (true, d).

(** sfptpd_engine_calculate_clustering_score, src/sfptpd_engine.c:2837-2926, for the instance
    [name] with offset from master [ofm] and clock [k]. The result of the comparison is used
    whether or not it succeeded. *)
Definition score (rd : Q -> Q) (c : ccfg) (ref : option reference) (name : nat) (ofm : Q) (k : clk) : option Z :=
  if negb (c_discriminator c) then Some 0 else
  match ref with
  | None => Some 0
  | Some r =>
    if (name =? r_name r)%nat then Some 1 else
    do d_ofm <- of_float_ns rd (r_offset r);
    if negb (r_valid r) then Some (c_default c) else
    do i_ofm <- of_float_ns rd ofm;
    if is_zero i_ofm then Some (c_default c) else
    do cmp <- clock_compare (r_clk r) k;
    do a <- subtract (snd cmp) d_ofm;
    do b <- add a i_ofm;
    Some (if Qlt_le_dec (Qabs (to_float_ns b)) (c_threshold c) then 1 else 0)
  end.

(** sfptpd_engine_compare_clustering_guard_threshold, src/sfptpd_engine.c:2932-2939. *)
Definition guarded (c : ccfg) (s : Z) : bool :=
  if negb (c_guard c) then false else s <? c_guard_threshold c.
