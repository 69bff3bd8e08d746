(** Model of sfptpd_strncpy and sfptpd_format, src/sfptpd_misc.c, and of the conversions it
    is used with. *)
Require Import ZArith List Bool.
Require Import Verif.Base Verif.ListLib Verif.StrSpec.
Import ListNotations.
Open Scope Z_scope.

(** Write [d] at offset [off] of buffer [b]: [None] is a write outside the buffer. *)
Definition write_at (off : nat) (d b : list Z) : option (list Z) :=
  if (off + length d <=? length b)%nat
  then Some (firstn off b ++ d ++ skipn (off + length d) b) else None.

(** C library strncpy: at most [n] characters, padded with zeros to exactly [n]. *)
Definition c_strncpy (dest src : list Z) (n : nat) : option (list Z) :=
  write_at 0 (firstn n src ++ repeat 0 (n - length src)) dest.

(** sfptpd_strncpy, lines 57-65.  [dest] is the whole destination object; [None] is a write
    outside it (dest[-1] for a size of zero). *)
Definition strncpy (dest src : list Z) (n : nat) : option (list Z) :=
  do d <- c_strncpy dest src n;
  if (n =? 0)%nat then None else write_at (n - 1) [0] d.

(** The interpolators used with sfptpd_format end in snprintf (src/sfptpd_logging.c:127-148,
    src/sfptpd_clock.c:322-346) or in strftime and strnlen (src/sfptpd_logging.c:150-176).
    [w_junk n] is what strftime leaves in a buffer of [n] bytes that is too small (its
    contents are then unspecified). *)
Inductive library := Snprintf | Strftime.
Record interp := mkInterp { in_conv : conversion; in_lib : library; in_junk : nat -> list Z }.

Fixpoint strnlen (b : list Z) (max : nat) : nat :=
  match max, b with
  | S m, c :: r => if c =? 0 then O else S (strnlen r m)
  | _, _ => O
  end.

(** A call of a writer with [space] bytes available: the bytes it stores and the value it
    returns; [None] is an error return.  strftime is given a buffer of 128 bytes when [space]
    is zero. *)
Definition writer (w : interp) (opt : Z) (space : nat) : option (list Z * nat) :=
  match cv_text (in_conv w) opt with
  | None => None
  | Some t =>
      match in_lib w with
      | Snprintf => Some (match space with O => [] | S k => firstn k t ++ [0] end, length t)
      | Strftime =>
          match space with
          | O => Some ([], if (length t <? 128)%nat then length t else strnlen (in_junk w 128) 128)
          | _ => if (length t <? space)%nat then Some (t ++ [0], length t)
                 else let j := firstn space (in_junk w space) in Some (j, strnlen j space)
          end
      end
  end.

(** The search of the table, lines 536-537. *)
Fixpoint lookup (tbl : list interp) (c : Z) : option interp :=
  match tbl with
  | [] => None
  | w :: r => if c =? cv_char (in_conv w) then Some w else lookup r c
  end.

(** Loop state: the buffer (None is a NULL pointer), len, ret (only its sign matters:
    [true] is negative), errors set. *)
Record fstate := mkF { f_buf : option (list Z); f_len : nat; f_neg : bool }.

Definition put_char (space : nat) (s : fstate) (c : Z) : option fstate :=
  do b <- match f_buf s with
          | Some b => if (f_len s + 1 <? space)%nat
                      then do b' <- write_at (f_len s) [c] b; Some (Some b') else Some (Some b)
          | None => Some None
          end;
  Some (mkF b (S (f_len s)) (f_neg s)).

(** The call of a writer, lines 545-553.  With [len > space] the space passed wraps to a huge
    number and the write is outside the buffer: [None]; a failed assertion is [None] too.  An
    error return leaves the state variable at ERROR, which line 556 overwrites. *)
Definition call_writer (space : nat) (s : fstate) (w : interp) (opt : Z) : option fstate :=
  if (negb (space =? 0)%nat && (space <? f_len s)%nat) then None else
  match writer w opt (if (space =? 0)%nat then O else (space - f_len s)%nat) with
  | None => Some (mkF (f_buf s) (f_len s) true)
  | Some (d, n) =>
      do b <- match f_buf s with
              | Some b => do b' <- write_at (f_len s) d b; Some (Some b')
              | None => match d with [] => Some None | _ => None end
              end;
      if ((space =? 0)%nat || (f_len s + n <? space)%nat)
      then Some (mkF b (f_len s + n) false) else None
  end.

(** The loop, lines 519-561: [inl] is the state at the terminating zero with the value of
    [state] ([true]: IDLE); [None] is a fault (including reading the format beyond its
    terminating zero). *)
Fixpoint format_loop (tbl : list interp) (space : nat) (fmt : list Z) (s : fstate) {struct fmt}
  : option (fstate * bool) :=
  match fmt with
  | [] => Some (s, true)
  | c :: r =>
      if c =? PERCENT then
        match r with
        | [] => Some (s, false)
        | c2 :: r2 =>
            if c2 =? PERCENT then do s' <- put_char space s c2; format_loop tbl space r2 s'
            else match lookup tbl c2 with
                 | None => format_loop tbl space r2 s
                 | Some w =>
                     if cv_has_opt (in_conv w) then
                       match r2 with
                       | [] => None  (* the option is the terminating zero; the loop reads on *)
                       | o :: r3 => do s' <- call_writer space s w o; format_loop tbl space r3 s'
                       end
                     else do s' <- call_writer space s w 0; format_loop tbl space r2 s'
                 end
        end
      else do s' <- put_char space s c; format_loop tbl space r s'
  end.

(** sfptpd_format, lines 507-575: the buffer afterwards and the result, [None] for -1. *)
Definition format (tbl : list interp) (buffer : option (list Z)) (space : nat) (fmt : list Z)
  : option (option (list Z) * option nat) :=
  match buffer, space with
  | None, S _ => None
  | _, _ =>
      do x <- format_loop tbl space fmt (mkF buffer 0 false);
      let (s, idle) := x in
      let neg := negb idle || f_neg s in
      do b <- match f_buf s with
              | None => Some None
              | Some b => if (f_len s <? space)%nat
                          then do b' <- write_at (f_len s) [0] b; Some (Some b') else None
              end;
      Some (b, if neg then None else Some (f_len s))
  end.
