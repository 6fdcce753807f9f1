(** * epsilon/extime.py: Time and the texts people type *)

From Coq Require Import ZArith NArith String List Bool Lia ZifyBool ZifyN.
From Verif Require Import Py PyStr PyNum PyInt Regex Cal PyTime Extime ExtimeIso ExtimeRfc.
Import ListNotations.
Open Scope Z_scope.
Open Scope py_scope.
Open Scope list_scope.

(** ** The patterns *)

(** A letter under re.IGNORECASE: the letter in either case, and the other
    characters CPython's re takes for the same letter (U+017F for s, U+0130
    and U+0131 for i, U+212A for k). *)
Definition ci (x c : N) : bool :=
  ((ascii_lower c =? x) || ((x =? 115) && (c =? 383)) || ((x =? 105) && ((c =? 304) || (c =? 305))) || ((x =? 107) && (c =? 8490)))%N.

(** a word under re.IGNORECASE *)
Fixpoint re_word (w : str) : re :=
  match w with
  | [] => Star (fun _ => false)
  | [x] => Cls (ci x)
  | x :: t => Seq (Cls (ci x)) (re_word t)
  end.
Fixpoint re_words (l : list str) : re :=
  match l with
  | [] => Cls (fun _ => false)
  | [w] => re_word w
  | w :: t => Alt (re_word w) (re_words t)
  end.

(** extime.py:269-270 *)
Definition weekdays : list str := map lit ["monday"; "tuesday"; "wednesday"; "thursday"; "friday"; "saturday"; "sunday"]%string.

(** the named groups *)
Definition g_wday := 0%nat. Definition g_hh := 1%nat. Definition g_mm := 2%nat. Definition g_ampm := 3%nat.

(** extime.py:273-287 *)
Definition re_weekday : re :=
  Seq Wb (Seq (Opt (Seq (re_words (map lit ["next"; "this"]%string)) (Seq (Cls is_space) (Star is_space))))
    (Seq (Cap g_wday (re_words weekdays)) Wb)).
(** extime.py:288-289 *)
Definition re_days : re := Seq Wb (Seq (re_words (map lit ["today"; "tomorrow"; "yesterday"]%string)) Wb).
(** extime.py:290-296 *)
Definition re_clock : re :=
  Seq Wb (Seq (Cap g_hh (Seq d1 (Opt d1))) (Seq (chr 58) (Seq (Cap g_mm d2)
    (Seq (Opt (Seq (Star is_space) (Cap g_ampm (re_words (map lit ["am"; "pm"]%string))))) Wb)))).
(** extime.py:297-298 *)
Definition re_noon : re := Seq Wb (Seq (re_words (map lit ["noon"; "midnight"]%string)) Wb).
(** extime.py:299-300 *)
Definition re_now : re := Seq Wb (Seq (re_words (map lit ["now"]%string)) Wb).

(** [x.replace(...)] of an aware datetime: the zone is kept *)
Definition replace_clock (l : Z) (h mi s us : Z) : res Z := datetime (F (f_date (fields_of l)) h mi s us).

Section Text.
  (** [str.lower], and [\w] beyond ASCII and the decimal digits *)
  Variable ulower : str -> str.
  Variable ualnum : N -> bool.

  (** [\w] *)
  Definition wordc (c : N) : bool :=
    is_upper c || is_lower c || (c =? 95)%N || dig c || ((128 <=? c)%N && ualnum c).

  (** extime.py:196-206, _fromWeekday; [tzinfo] is not used *)
  Definition fromWeekday (txt : str) (c : caps) (tzinfo : Z) (now : time) : res time :=
    match group g_wday c with
    | None => Err AttributeError
    | Some w =>
        match index_of (ulower w) weekdays with
        | None => Err ValueError
        | Some wd =>
            x <- asDatetime now None ;;
            dtnow <- replace_clock (dt_local x) 0 0 0 0 ;;
            let daysInFuture := (wd - weekday dtnow) mod 7 in
            let daysInFuture := if daysInFuture =? 0 then 7 else daysInFuture in
            l <- add_td dtnow (daysInFuture * DAY) ;;
            self <- fromDatetime (Dt l (dt_tz x)) ;;
            y <- asDatetime self None ;;
            if weekday (dt_local y) =? wd then Ok (T (t_us self) DAY) else Err AssertionError
        end
    end.

  (** extime.py:209-221, _fromTodayOrTomorrow *)
  Definition fromTodayOrTomorrow (txt : str) (c : caps) (tzinfo : Z) (now : time) : res time :=
    x <- asDatetime now None ;;
    dtnow <- replace_clock (dt_local x) 0 0 0 0 ;;
    let when := ulower txt in
    l <- (if eqb when (lit "tomorrow") then add_td dtnow DAY
          else if eqb when (lit "yesterday") then add_td dtnow (- DAY)
          else if eqb when (lit "today") then Ok dtnow else Err AssertionError) ;;
    self <- fromDatetime (Dt l (dt_tz x)) ;;
    Ok (T (t_us self) DAY).

  (** extime.py:228-235: the hour of the day *)
  Definition hour_of (hour : Z) (ampm : str) : res Z :=
    h <- (match ampm with
          | [] => Ok hour
          | _ =>
              if negb ((1 <=? hour) && (hour <=? 12)) then Err ValueError
              else if (hour =? 12) && eqb ampm (lit "am") then Ok 0
              else if eqb ampm (lit "pm") then Ok (hour + 12)
              else Ok hour
          end) ;;
    if negb ((0 <=? h) && (h <=? 23)) then Err ValueError else Ok h.

  (** extime.py:224-245, _fromTime.  [dtthen < dtnow] compares the local
      fields, the zone being the same. *)
  Definition fromTime (txt : str) (c : caps) (tzinfo : Z) (now : time) : res time :=
    match group g_hh c, group g_mm c with
    | Some hh, Some mm =>
        minute <- py_int mm ;;
        hour <- py_int hh ;;
        hour <- hour_of hour (match group g_ampm c with Some a => ulower a | None => [] end) ;;
        x <- asDatetime now (Some tzinfo) ;;
        let f := fields_of (dt_local x) in
        dtnow <- replace_clock (dt_local x) (f_hour f) (f_min f) 0 0 ;;
        dtthen <- replace_clock dtnow hour minute 0 0 ;;
        l <- (if dtthen <? dtnow then add_td dtthen DAY else Ok dtthen) ;;
        self <- fromDatetime (Dt l (dt_tz x)) ;;
        Ok (T (t_us self) MINUTE)
    | _, _ => Err TypeError
    end.

  (** extime.py:248-263, _fromNoonOrMidnight *)
  Definition fromNoonOrMidnight (txt : str) (c : caps) (tzinfo : Z) (now : time) : res time :=
    let when := ulower txt in
    hour <- (if eqb when (lit "noon") then Ok 12 else if eqb when (lit "midnight") then Ok 0 else Err AssertionError) ;;
    x <- asDatetime now (Some tzinfo) ;;
    let f := fields_of (dt_local x) in
    dtnow <- replace_clock (dt_local x) (f_hour f) 0 0 0 ;;
    dtthen <- replace_clock dtnow hour 0 0 0 ;;
    l <- (if dtthen <? dtnow then add_td dtthen DAY else Ok dtthen) ;;
    self <- fromDatetime (Dt l (dt_tz x)) ;;
    Ok (T (t_us self) MINUTE).

  (** extime.py:265-267, _fromNow *)
  Definition fromNow (txt : str) (c : caps) (tzinfo : Z) (now : time) : res time := time_add now 0.

  (** extime.py:272-301 *)
  Definition humanlyPatterns : list (re * (str -> caps -> Z -> time -> res time)) :=
    [(re_weekday, fromWeekday); (re_days, fromTodayOrTomorrow); (re_clock, fromTime);
     (re_noon, fromNoonOrMidnight); (re_now, fromNow)].

  (** extime.py:331-340 *)
  Fixpoint try_patterns (l : list (re * (str -> caps -> Z -> time -> res time))) (s : str) (tzinfo : Z) (now : time) : res time :=
    match l with
    | [] => Err ValueError
    | (pattern, creator) :: l' =>
        match pmatch wordc pattern s with
        | None => try_patterns l' s tzinfo now
        | Some (txt, c) =>
            if negb (length txt =? length s)%nat then try_patterns l' s tzinfo now
            else match creator txt c tzinfo now with
                 | Err ValueError => try_patterns l' s tzinfo now
                 | r => r
                 end
        end
    end.

  (** extime.py:310-340, fromHumanly.  Simplification: [now] is given (without
      it the clock is read first). *)
  Definition fromHumanly (humanStr : str) (tzinfo : option Z) (now : time) : res time :=
    let s := strip is_space humanStr in
    let tz := match tzinfo with None => fixed_offset 0 0 | Some o => o end in
    try_patterns humanlyPatterns s tz now.
End Text.

(** ** Output *)

(** extime.py:167-174 *)
Inductive precision := MINUTES | SECONDS | OtherPrecision.

(** [%I:%M %p] and [%I:%M:%S %p] in the C locale (glibc), in lower case *)
Definition hour12 (h : Z) : Z := if h mod 12 =? 0 then 12 else h mod 12.
Definition clock12 (seconds : bool) (f : fields) : str :=
  zpad 2 (hour12 (f_hour f)) ++ lit ":" ++ zpad 2 (f_min f) ++
  (if seconds then lit ":" ++ zpad 2 (f_sec f) else []) ++ lit (if f_hour f <? 12 then " am" else " pm").

(** extime.py:812-854, asHumanly.  Simplifications: [now] is given; [%b] and
    [%p] are those of the C locale, [%Y] that of glibc (no padding);
    InvalidPrecision is [OtherExn 0]. *)
Definition asHumanly (self : time) (tzinfo : option Z) (now : time) (p : precision) : res str :=
  seconds <- (match p with MINUTES => Ok false | SECONDS => Ok true | OtherPrecision => Err (OtherExn 0) end) ;;
  n <- asDatetime now tzinfo ;;
  x <- asDatetime self tzinfo ;;
  let f := fields_of (dt_local x) in
  let g := fields_of (dt_local n) in
  if (d_year (f_date f) =? d_year (f_date g)) && (d_month (f_date f) =? d_month (f_date g)) && (d_day (f_date f) =? d_day (f_date g)) then
    if isAllDay self then Ok (lit "all day") else Ok (clock12 seconds f)
  else
    Ok (zdec (d_day (f_date f)) ++ lit " " ++ at_index rfc2822Months (d_month (f_date f) - 1) ++
        (if d_year (f_date f) =? d_year (f_date g) then [] else lit " " ++ zdec (d_year (f_date f))) ++
        (if isAllDay self then [] else lit ", " ++ clock12 seconds f)).
