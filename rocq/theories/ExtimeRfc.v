(** * epsilon/extime.py: Time and the dates of RFC 2822 and RFC 1123 *)

From Coq Require Import ZArith NArith QArith String List Bool Lia ZifyBool ZifyN.
From Verif Require Import Py PyStr PySplit PyNum PyInt PyFloat Cal PyTime Extime ExtimeIso ExtimePosix.
Import ListNotations.
Open Scope Z_scope.
Open Scope py_scope.
Open Scope list_scope.

(** ** The standard library: email._parseaddr (Python 3.12), text of the
    module; not code of /repo *)

Definition monthnames : list str := map lit
  ["jan"; "feb"; "mar"; "apr"; "may"; "jun"; "jul"; "aug"; "sep"; "oct"; "nov"; "dec";
   "january"; "february"; "march"; "april"; "may"; "june"; "july"; "august"; "september"; "october"; "november"; "december"]%string.
Definition daynames : list str := map lit ["mon"; "tue"; "wed"; "thu"; "fri"; "sat"; "sun"]%string.
Definition timezones : list (str * Z) := map (fun '(k, v) => (lit k, v))
  [("UT", 0); ("UTC", 0); ("GMT", 0); ("Z", 0); ("AST", -400); ("ADT", -300); ("EST", -500); ("EDT", -400);
   ("CST", -600); ("CDT", -500); ("MST", -700); ("MDT", -600); ("PST", -800); ("PDT", -700)]%string.

(** [s.endswith(c)] *)
Definition ends (c : N) (s : str) : bool := match rev s with x :: _ => (x =? c)%N | [] => false end.
(** [s[-1] == c] *)
Definition last_is (c : N) (s : str) : res bool := match rev s with x :: _ => Ok (x =? c)%N | [] => Err IndexError end.
(** [s[i+1:]] where [i] is [s.rfind(c)]; None if there is no [c] *)
Fixpoint after_last (c : N) (s : str) : option str :=
  match s with
  | [] => None
  | x :: t => match after_last c t with Some r => Some r | None => if (x =? c)%N then Some t else None end
  end.
(** [l.index(x)] *)
Fixpoint index_of (x : str) (l : list str) : option Z :=
  match l with
  | [] => None
  | y :: t => if eqb x y then Some 0 else option_map Z.succ (index_of x t)
  end.
Fixpoint lookup_zone (x : str) (l : list (str * Z)) : option Z :=
  match l with
  | [] => None
  | (k, v) :: t => if eqb x k then Some v else lookup_zone x t
  end.
(** [s] without the comma at its end *)
Definition chop (s : str) : res str := b <- last_is 44 s ;; Ok (if b then removelast s else s).

Section Text.
  (** [str.lower], [str.upper] and [str.isdigit] beyond ASCII *)
  Variable ulower uupper : str -> str.
  Variable uisdigit : N -> bool.

  (** a day name in front is skipped *)
  Definition drop_day (data : list str) : list str :=
    match data with
    | [] => []
    | d :: rest =>
        if ends 44 d || memb (ulower d) daynames then rest
        else match after_last 44 d with Some t => t :: rest | None => data end
    end.

  (** a date as in RFC 850 *)
  Definition rfc850 (data : list str) : list str :=
    match data with
    | [a; b; c] => let stuff := split (lit "-") a in if (length stuff =? 3)%nat then stuff ++ [b; c] else data
    | _ => data
    end.

  (** a zone that follows the time directly, or none *)
  Definition split_zone (data : list str) : list str :=
    match data with
    | [a; b; c; s] =>
        match (match find (lit "+") s with Some i => Some i | None => find (lit "-") s end) with
        | Some (S i) => [a; b; c; firstn (S i) s; skipn (S i) s]
        | _ => [a; b; c; s; []]
        end
    | _ => data
    end.

  (** [_monthnames.index(mm) + 1], less 12 for the second dozen *)
  Definition month_index (mm : str) : option Z :=
    match index_of mm monthnames with
    | Some i => Some (if 12 <? i + 1 then i + 1 - 12 else i + 1)
    | None => None
    end.

  (** day and month, in either order *)
  Definition day_month (dd mm : str) : option (str * Z) :=
    match month_index (ulower mm) with
    | Some m => Some (dd, m)
    | None => match month_index (ulower dd) with Some m => Some (ulower mm, m) | None => None end
    end.

  (** the parts of the time *)
  Definition clock_parts (tm : str) : option (str * str * str) :=
    match split (lit ":") tm with
    | [h; m] => Some (h, m, lit "0")
    | [h; m; s] => Some (h, m, s)
    | [x] => if containsb (lit ".") x then
               match split (lit ".") x with
               | [h; m] => Some (h, m, lit "0")
               | [h; m; s] => Some (h, m, s)
               | _ => None
               end
             else None
    | _ => None
    end.

  (** two-digit years *)
  Definition full_year (yy : Z) : Z := if yy <? 100 then (if 68 <? yy then yy + 1900 else yy + 2000) else yy.

  (** seconds; None for a zone that is not known and for -0000 *)
  Definition zone_seconds (tz : str) : option Z :=
    let tz := uupper tz in
    let tzoffset := match lookup_zone tz timezones with
                    | Some v => Some v
                    | None => match py_int tz with
                              | Ok v => if (v =? 0) && prefixb (lit "-") tz then None else Some v
                              | Err _ => None
                              end
                    end in
    match tzoffset with
    | Some v => if v =? 0 then Some 0
                else if v <? 0 then Some (- ((- v) / 100 * 3600 + (- v) mod 100 * 60))
                else Some (v / 100 * 3600 + v mod 100 * 60)
    | None => None
    end.

  (** the numbers of five texts; None if one is no number *)
  Definition all_ints (yy dd thh tmm tss : str) : option (Z * Z * Z * Z * Z) :=
    match py_int yy, py_int dd, py_int thh, py_int tmm, py_int tss with
    | Ok y, Ok d, Ok h, Ok m, Ok s => Some (y, d, h, m, s)
    | _, _, _, _, _ => None
    end.

  (** _parsedate_tz; None: not a date *)
  Definition parsedate_tz_ (data : str) : res (option (list Z * option Z)) :=
    match split_zone (rfc850 (drop_day (split_ws data))) with
    | dd :: mm :: yy :: tm :: tz :: _ =>
        match dd, mm, yy with
        | [], _, _ | _, [], _ | _, _, [] => Ok None
        | _, _, _ =>
          match day_month dd mm with
          | None => Ok None
          | Some (dd, month) =>
            dd <- chop dd ;;
            let '(yy, tm) := match find (lit ":") yy with Some (S _) => (tm, yy) | _ => (yy, tm) end in
            yy <- chop yy ;;
            match yy with
            | [] => Ok None
            | y0 :: _ =>
              let '(yy, tz) := if uisdigit y0 then (yy, tz) else (tz, yy) in
              tm <- chop tm ;;
              match clock_parts tm with
              | None => Ok None
              | Some (thh, tmm, tss) =>
                match all_ints yy dd thh tmm tss with
                | None => Ok None
                | Some (y, d, h, m, s) => Ok (Some ([full_year y; month; d; h; m; s; 0; 1; -1], zone_seconds tz))
                end
              end
            end
          end
        end
    | _ => Ok None
    end.

  (** parsedate_tz: the ten numbers *)
  Definition parsedate_tz (data : str) : res (option (list Z)) :=
    r <- parsedate_tz_ data ;;
    Ok (match r with
        | None => None
        | Some (l, z) => Some (l ++ [match z with Some z => z | None => 0 end])
        end).

  (** datetime.timedelta(minutes = n) *)
  Definition timedelta_minutes (n : Z) : res Z := if td_ok (n * MINUTE) then Ok (n * MINUTE) else Err OverflowError.

  (** extime.py:624-655, fromRFC2822.  [offsetInSeconds] is never None
      (parsedate_tz of Python 3.3 and later).  FixedOffset: 83-90. *)
  Definition fromRFC2822 (rfc822string : str) : res time :=
    maybeStructTimePlus <- parsedate_tz rfc822string ;;
    match maybeStructTimePlus with
    | None => Err ValueError
    | Some l =>
        let structTimePlus := sanitizeStructTime l in
        let offsetInSeconds := last structTimePlus 0 in
        off <- timedelta_minutes (0 * 60 + offsetInSeconds / 60) ;;
        t <- fromStructTime structTimePlus (Some off) ;;
        Ok (T (t_us t) SECOND)
    end.
End Text.

(** ** Output *)

(** extime.py:176-179 *)
Definition rfc2822Weekdays : list str := map lit ["Mon"; "Tue"; "Wed"; "Thu"; "Fri"; "Sat"; "Sun"]%string.
Definition rfc2822Months : list str := map lit
  ["Jan"; "Feb"; "Mar"; "Apr"; "May"; "Jun"; "Jul"; "Aug"; "Sep"; "Oct"; "Nov"; "Dec"]%string.

(** [l[i]] for an index in range *)
Definition at_index (l : list str) (i : Z) : str := nth (Z.to_nat i) l [].

(** ['%4i'] *)
Definition spad (w : nat) (z : Z) : str := let t := zdec z in repeat 32%N (w - length t) ++ t.

(** extime.py:695-729, asRFC2822 *)
Definition asRFC2822 (self : time) (tzinfo : option Z) (includeDayOfWeek : bool) : res str :=
  dtime <- asDatetime self tzinfo ;;
  rfcoffset <- match tzinfo with
               | None => Ok (lit "-0000")
               | Some off => o <- utcoffset off ;;
                             let '(sign, hr, min) := signHrMin o in Ok (sign ++ zpad 2 hr ++ zpad 2 min)
               end ;;
  let f := fields_of (dt_local dtime) in
  Ok ((if includeDayOfWeek then at_index rfc2822Weekdays (weekday (dt_local dtime)) ++ lit ", " else []) ++
      zdec (d_day (f_date f)) ++ lit " " ++ at_index rfc2822Months (d_month (f_date f) - 1) ++ lit " " ++
      spad 4 (d_year (f_date f)) ++ lit " " ++
      zpad 2 (f_hour f) ++ lit ":" ++ zpad 2 (f_min f) ++ lit ":" ++ zpad 2 (f_sec f) ++ lit " " ++ rfcoffset).

(** The standard library, email.utils.formatdate(timeval, False, True)
    (Python 3.12) for a float: datetime.fromtimestamp rounds to microseconds
    like [accum], ValueError for a year out of range *)
Definition formatdate (timeval : Q) : res str :=
  let l := EPOCH + accum (NFloat timeval) in
  if in_range l then
    let f := fields_of l in
    Ok (at_index rfc2822Weekdays (weekday l) ++ lit ", " ++ zpad 2 (d_day (f_date f)) ++ lit " " ++
        at_index rfc2822Months (d_month (f_date f) - 1) ++ lit " " ++ zpad 4 (d_year (f_date f)) ++ lit " " ++
        zpad 2 (f_hour f) ++ lit ":" ++ zpad 2 (f_min f) ++ lit ":" ++ zpad 2 (f_sec f) ++ lit " GMT")
  else Err ValueError.

(** extime.py:732-740, asRFC1123 *)
Definition asRFC1123 (self : time) : res str := formatdate (asPOSIXTimestamp self).
