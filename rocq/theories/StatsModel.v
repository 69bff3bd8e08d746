(** Model of src/sfptpd_statistics.c: convergence, range and count measures, history
    items and collections.  long double is exact rationals; [None] is a failed assertion
    or signed overflow.  Allocation is assumed to succeed. *)
Require Import ZArith QArith List Bool.
Require Import Verif.Base Verif.TimeSpec Verif.TimeModel Verif.QLib Verif.ListLib.
Require Import Verif.FilterModel Verif.StatsSpec.
Import ListNotations.
Open Scope Z_scope.

(** ** Convergence: struct sfptpd_stats_convergence, src/include/sfptpd_statistics.h:62-69. *)
Record conv := mkConv { c_min : Z; c_max : Q; c_num : Z; c_start : Z; c_latest : Z }.

(** sfptpd_stats_convergence_reset, src/sfptpd_statistics.c:141-148. *)
Definition conv_reset (c : conv) : conv := mkConv (c_min c) (c_max c) 0 0 0.

(** sfptpd_stats_convergence_init followed by set_min_period and set_max_offset
    (asserts max > 0), lines 113-138. *)
Definition conv_init (min : Z) (max : Q) : option conv :=
  if Qlt_bool 0 max then Some (conv_reset (mkConv min max 0 0 0)) else None.

(** sfptpd_stats_convergence_update, lines 151-182.  num_samples is unsigned int and
    wraps; start_time + min_period may overflow time_t. *)
Definition conv_update (c : conv) (t : Z) (x : Q) : option (conv * bool) :=
  if Qlt_bool x (- c_max c) || Qlt_bool (c_max c) x then Some (conv_reset c, false)
  else if t <? c_start c then Some (mkConv (c_min c) (c_max c) 1 t t, false)
  else
    let start := if c_num c =? 0 then t else c_start c in
    do lim <- chk_s64 (start + c_min c);
    Some (mkConv (c_min c) (c_max c) (u32 (c_num c + 1)) start t, lim <=? t).

Definition conv_step (c : conv) (o : cop) : option conv :=
  match o with
  | CReset => Some (conv_reset c)
  | CUpdate t x => do r <- conv_update c t x; Some (fst r)
  end.
Fixpoint conv_run (c : conv) (ops : list cop) : option conv :=
  match ops with [] => Some c | o :: r => do c' <- conv_step c o; conv_run c' r end.

(** ** Range: struct sfptpd_stats_range, src/include/sfptpd_statistics.h:145-156. *)
Record range := mkRange {
  rg_valid : bool; rg_num : Z; rg_total : Q; rg_sq : Q; rg_min : Q; rg_max : Q;
  rg_qual : bool; rg_min_time : ts; rg_max_time : ts }.

(** calloc'd memory. *)
Definition range_zero : range := mkRange false 0 0 0 0 0 false null_time null_time.

(** sfptpd_stats_range_init, lines 288-300. *)
Definition range_init : range :=
  mkRange true 0 0 0 (inject_Z (10^100)) (- inject_Z (10^100)) true null_time null_time.

(** sfptpd_stats_range_update, lines 303-324. *)
Definition range_update (r : range) (s : rsample) : range :=
  if r_qual s then
    let lo := Qlt_bool (r_val s) (rg_min r) in
    let hi := Qlt_bool (rg_max r) (r_val s) in
    mkRange (rg_valid r) (u64 (rg_num r + 1)) (rg_total r + r_val s)
            (rg_sq r + r_val s * r_val s)
            (if lo then r_val s else rg_min r) (if hi then r_val s else rg_max r)
            (rg_qual r)
            (if lo then r_time s else rg_min_time r) (if hi then r_time s else rg_max_time r)
  else mkRange (rg_valid r) (rg_num r) (rg_total r) (rg_sq r) (rg_min r) (rg_max r)
               false (rg_min_time r) (rg_max_time r).

(** sfptpd_stats_range_add, lines 327-345. *)
Definition range_add (d s : range) : range :=
  let lo := Qlt_bool (rg_min s) (rg_min d) in
  let hi := Qlt_bool (rg_max d) (rg_max s) in
  mkRange (rg_valid d) (u64 (rg_num d + rg_num s)) (rg_total d + rg_total s)
          (rg_sq d + rg_sq s)
          (if lo then rg_min s else rg_min d) (if hi then rg_max s else rg_max d)
          (if rg_qual s then rg_qual d else false)
          (if lo then rg_min_time s else rg_min_time d)
          (if hi then rg_max_time s else rg_max_time d).

(** ** Count: struct sfptpd_stats_count and lines 348-374 (update is always called with
    one sample: stats_count_history_update, line 728). *)
Record count := mkCount { ct_valid : bool; ct_num : Z; ct_total : Z }.
Definition count_zero : count := mkCount false 0 0.
Definition count_init : count := mkCount true 0 0.
Definition count_update (c : count) (x : Z) : count :=
  mkCount (ct_valid c) (u64 (ct_num c + 1)) (u64 (ct_total c + x)).
Definition count_add (d s : count) : count :=
  mkCount (ct_valid d) (u64 (ct_num d + ct_num s)) (u64 (ct_total d + ct_total s)).

(** ** History of a measure: struct stats_range_history / stats_count_history, lines
    40-62: the active accumulator and 5 periods of 4 entries.  The two kinds share their
    code shape, so it is written once, generic in the measure. *)
Record hist (A : Type) := mkHist { h_active : A; h_rows : list (list A) }.
Arguments mkHist {A}. Arguments h_active {A}. Arguments h_rows {A}.

Definition PERIODS : nat := 5.
Definition HISTORY : nat := 4.

(** stats_{range,count}_history_alloc, lines 382-411 and 679-709. *)
Definition hist_alloc {A} (zero init : A) : hist A :=
  mkHist init (repeat (init :: repeat zero (HISTORY - 1)) PERIODS).

Definition add_current {A} (add : A -> A -> A) (x : A) (row : list A) : list A :=
  match row with [] => [] | c :: r => add c x :: r end.

(** The memmove of all but the last entry up by one, then re-initialising CURRENT. *)
Definition shift_row {A} (init : A) (row : list A) : list A :=
  init :: firstn (HISTORY - 1) row.

(** stats_{range,count}_history_end_period, lines 438-470 and 732-764. *)
Definition hist_end_period {A} (init : A) (add : A -> A -> A) (h : hist A) (p : nat) : hist A :=
  let h1 := if (p =? 0)%nat
            then mkHist init (map (add_current add (h_active h)) (h_rows h))
            else h in
  mkHist (h_active h1)
         (match nth_error (h_rows h1) p with
          | Some row => set_nth p (shift_row init row) (h_rows h1)
          | None => h_rows h1
          end).

(** ** Items and collections *)
Inductive item := IRange (h : hist range) | ICount (h : hist count).

Definition item_end_period (it : item) (p : nat) : item :=
  match it with
  | IRange h => IRange (hist_end_period range_init range_add h p)
  | ICount h => ICount (hist_end_period count_init count_add h p)
  end.

(** struct sfptpd_stats_time_interval. *)
Record interval := mkIv { iv_seq : Z; iv_sv : bool; iv_start : ts; iv_ev : bool; iv_end : ts }.
Definition iv_zero : interval := mkIv 0 false null_time false null_time.

Record coll := mkColl {
  co_elapsed : list Z; co_iv : list (list interval); co_items : list (option item) }.

(** sfptpd_stats_periods, lines 69-76. *)
Definition period_secs : list Z := [60; 60*10; 60*60; 60*60*24; 60*60*24*7].

(** sfptpd_stats_collection_alloc, lines 893-930; capacity 1. *)
Definition coll_alloc (now : ts) : coll :=
  mkColl (repeat 0 PERIODS)
         (repeat (mkIv 0 true now false null_time :: repeat iv_zero (HISTORY - 1)) PERIODS)
         [None].

(** Error returns. *)
Inductive rc := ROk | REExist | RERange | RENoEnt | REInval.

Inductive stype := TRange | TCount.

(** Growth of the item array in sfptpd_stats_collection_add, lines 1002-1023:
    1 << (32 - clz(id)) is the power of two above id; clz(0) is undefined, so is a
    shift by 32. *)
Definition coll_grow (items : list (option item)) (id : Z) : option (list (option item)) :=
  if Z.of_nat (length items) <=? id then
    if id =? 0 then None
    else let new := Z.to_nat (2 ^ (Z.log2 id + 1)) in
         Some (items ++ repeat None (new - length items))
  else Some items.

(** sfptpd_stats_collection_add, lines 988-1052. *)
Definition coll_add (c : coll) (id : Z) (ty : stype) : option (coll * rc) :=
  if 256 <=? id then None else
  do items <- coll_grow (co_items c) id;
  match nth_error items (Z.to_nat id) with
  | None => None
  | Some (Some _) => Some (mkColl (co_elapsed c) (co_iv c) items, REExist)
  | Some None =>
      let it := match ty with
                | TRange => IRange (hist_alloc range_zero range_init)
                | TCount => ICount (hist_alloc count_zero count_init)
                end in
      Some (mkColl (co_elapsed c) (co_iv c) (set_nth (Z.to_nat id) (Some it) items), ROk)
  end.

(** stats_collection_type_check, lines 1055-1090; [None] for [ty] is TYPE_MAX. *)
Definition item_type (it : item) : stype := match it with IRange _ => TRange | ICount _ => TCount end.
Definition stype_eqb (a b : stype) : bool :=
  match a, b with TRange, TRange | TCount, TCount => true | _, _ => false end.
Definition type_check (c : coll) (id : Z) (ty : stype) : option rc :=
  if 256 <=? id then None else
  if Z.of_nat (length (co_items c)) <=? id then Some RERange else
  match nth_error (co_items c) (Z.to_nat id) with
  | Some (Some it) => Some (if stype_eqb (item_type it) ty then ROk else REInval)
  | _ => Some RENoEnt
  end.

(** sfptpd_stats_collection_update_range / update_count, lines 1093-1144. *)
Definition coll_update_range (c : coll) (id : Z) (s : rsample) : option (coll * rc) :=
  do r <- type_check c id TRange;
  match r, nth_error (co_items c) (Z.to_nat id) with
  | ROk, Some (Some (IRange h)) =>
      Some (mkColl (co_elapsed c) (co_iv c)
              (set_nth (Z.to_nat id)
                 (Some (IRange (mkHist (range_update (h_active h) s) (h_rows h)))) (co_items c)), ROk)
  | _, _ => Some (c, r)
  end.
Definition coll_update_count (c : coll) (id : Z) (x : Z) : option (coll * rc) :=
  do r <- type_check c id TCount;
  match r, nth_error (co_items c) (Z.to_nat id) with
  | ROk, Some (Some (ICount h)) =>
      Some (mkColl (co_elapsed c) (co_iv c)
              (set_nth (Z.to_nat id)
                 (Some (ICount (mkHist (count_update (h_active h) x) (h_rows h)))) (co_items c)), ROk)
  | _, _ => Some (c, r)
  end.

(** One iteration of the period loop of sfptpd_stats_collection_end_period, lines
    1159-1194. *)
Definition coll_period (time : ts) (c : coll) (p : nat) : coll :=
  match nth_error (co_elapsed c) p, nth_error period_secs p, nth_error (co_iv c) p with
  | Some e, Some len, Some (cur :: rest) =>
      let e1 := e + 60 in
      if len <=? e1 then
        let done := mkIv (iv_seq cur) (iv_sv cur) (iv_start cur) true time in
        let next := mkIv (iv_seq cur + 1) true time false null_time in
        mkColl (set_nth p 0 (co_elapsed c))
               (set_nth p (next :: firstn (HISTORY - 1) (done :: rest)) (co_iv c))
               (map (option_map (fun it => item_end_period it p)) (co_items c))
      else mkColl (set_nth p e1 (co_elapsed c)) (co_iv c) (co_items c)
  | _, _, _ => c
  end.

Definition coll_end_period (c : coll) (time : ts) : coll :=
  fold_left (coll_period time) (seq 0 PERIODS) c.

(** sfptpd_stats_collection_get_range, lines 1198-1240 with stats_range_history_get,
    lines 626-658: (mean, min, max, qualified, min time, max time); the mean of no
    samples is NaN, [None]. *)
Definition coll_get_range (c : coll) (id : Z) (p j : nat) :
  option (rc * option (option Q * Q * Q * bool * ts * ts)) :=
  do r <- type_check c id TRange;
  match r, nth_error (co_items c) (Z.to_nat id) with
  | ROk, Some (Some (IRange h)) =>
      do row <- nth_error (h_rows h) p;
      do e <- nth_error row j;
      if rg_valid e then
        Some (ROk, Some (if rg_num e =? 0 then None else Some (rg_total e / inject_Z (rg_num e))%Q,
                         rg_min e, rg_max e, rg_qual e, rg_min_time e, rg_max_time e))
      else Some (RENoEnt, None)
  | _, _ => Some (r, None)
  end.

(** sfptpd_stats_collection_get_count, lines 1243-1256. *)
Definition coll_get_count (c : coll) (id : Z) (p j : nat) : option (rc * option Z) :=
  do r <- type_check c id TCount;
  match r, nth_error (co_items c) (Z.to_nat id) with
  | ROk, Some (Some (ICount h)) =>
      do row <- nth_error (h_rows h) p;
      do e <- nth_error row j;
      if ct_valid e then Some (ROk, Some (ct_total e)) else Some (RENoEnt, None)
  | _, _ => Some (r, None)
  end.

(** Operations on a created collection. *)
Definition coll_step (c : coll) (o : kop) : option coll :=
  match o with
  | KRange id s => do r <- coll_update_range c id s; Some (fst r)
  | KCount id x => do r <- coll_update_count c id x; Some (fst r)
  | KTick t => Some (coll_end_period c t)
  end.
Fixpoint coll_run (c : coll) (ops : list kop) : option coll :=
  match ops with [] => Some c | o :: r => do c' <- coll_step c o; coll_run c' r end.

(** sfptpd_stats_collection_create, lines 933-961: stops at the first failure. *)
Fixpoint coll_create (c : coll) (defs : list (Z * stype)) : option (coll * rc) :=
  match defs with
  | [] => Some (c, ROk)
  | (id, ty) :: r =>
      do a <- coll_add c id ty;
      match snd a with ROk => coll_create (fst a) r | e => Some (fst a, e) end
  end.
