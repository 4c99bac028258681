(* Model of the clock: pico/rtc_pico.c, the commands date and time
   (kernel/cmd/cmd_date.c, kernel/cmd/cmd_time.c), and the time stamps of
   files (get_fattime, fatfs/fatfs.c:3393-3429).

   Simplifications: the board is one with HAS_RP2040_RTC.  The clock stands
   still while a command runs.  The functions behind rtc_get_datetime,
   rtc_set_datetime (Pico SDK) and vsscanf (C library) are not in the
   repository: they are modelled from their documentation, see below. *)
From Coq Require Import String Ascii.
From Verif Require Import Base Arr ExecModel GetoptModel DotwModel DirModel.
Open Scope Z_scope.

(* The hardware's registers, and what fpm_get_datetime stores through its
   seven pointers, pico/rtc_pico.c:10-25 *)
Record clock := Clock { yr : Z; mon : Z; dom : Z; dow : Z; hr : Z; mn : Z; sc : Z }.

(* rtc_set_datetime of the Pico SDK: a value out of range is refused with a
   result that fpm_set_datetime does not look at. *)
Definition rtc_set_datetime (now t : clock) : clock :=
  let within lo x hi := (lo <=? x) && (x <=? hi) in
  if within 0 (yr t) 4095 && within 1 (mon t) 12 && within 1 (dom t) 31 && within 0 (dow t) 6 &&
     within 0 (hr t) 23 && within 0 (mn t) 59 && within 0 (sc t) 59 then t else now.

(* fpm_set_datetime, pico/rtc_pico.c:29-45.  The fields of datetime_t are
   int16_t (year) and int8_t: no value stored here exceeds them. *)
Definition set_datetime (now : clock) (year month day hour min sec : Z) : res clock :=
  dotw <- fpm_get_dotw year month day ;;
  Ok (rtc_set_datetime now (Clock year month day dotw hour min sec)).

(* isspace of the C locale *)
Definition isspace (c : Z) : bool := (c =? 32) || ((9 <=? c) && (c <=? 13)).
Definition isdigit (c : Z) : bool := (48 <=? c) && (c <=? 57).
Fixpoint skip_space (s : list Z) : list Z := match s with c :: r => if isspace c then skip_space r else s | [] => [] end.
Fixpoint scan_digits (s : list Z) (n : Z) : Z * list Z :=
  match s with c :: r => if isdigit c then scan_digits r (10 * n + (c - 48)) else (n, s) | [] => (n, []) end.

(* %d of vsscanf: white space, a sign, digits; None: no match.  A number
   outside of int is undefined. *)
Definition scan_int (s : list Z) : res (option (Z * list Z)) :=
  let s := skip_space s in
  let '(neg, s) := match s with c :: r => if c =? 45 then (true, r) else if c =? 43 then (false, r) else (false, s) | [] => (false, []) end in
  match s with
  | c :: _ => if isdigit c then
                let '(n, r) := scan_digits s 0 in
                n <- int_of (if neg : bool then - n else n) ;; Ok (Some (n, r))
              else Ok None
  | [] => Ok None
  end.
(* an ordinary character of the format *)
Definition scan_char (c : Z) (s : list Z) : option (list Z) := match s with x :: r => if x =? c then Some r else None | [] => None end.

(* vsscanf (str, "%d" sep "%d" sep "%d", &a, &b, &c) != 3 is None.  What
   lies behind the third number is not looked at. *)
Definition scan3 (sep : Z) (s : list Z) : res (option (Z * Z * Z)) :=
  a <- scan_int s ;;
  match a with None => Ok None | Some (a, s) =>
  match scan_char sep s with None => Ok None | Some s =>
  b <- scan_int s ;;
  match b with None => Ok None | Some (b, s) =>
  match scan_char sep s with None => Ok None | Some s =>
  c <- scan_int s ;;
  match c with None => Ok None | Some (c, s) => Ok (Some (a, b, c)) end end end end end.

Definition text (s : string) : list Z := str s.
Definition bad_date : list Z := text "The specified date is not correct." ++ crlf ++ [10].
Definition bad_time : list Z := text "The specified time is not correct." ++ crlf ++ [10].

(* set_date, kernel/cmd/cmd_date.c:8-25: the output and the clock.  The
   variables of a failed scan are overwritten but not used. *)
Definition set_date (now : clock) (s : list Z) : res (list Z * clock) :=
  r <- scan3 47 s ;;
  match r with
  | Some (month, day, year) =>
      if (month <? 1) || (12 <? month) || (day <? 1) || (31 <? day) || (year <? 2000) || (9999 <? year) then Ok (bad_date, now)
      else now' <- set_datetime now year month day (hr now) (mn now) (sc now) ;; Ok (crlf, now')
  | None => Ok (bad_date, now)
  end.

(* set_time, kernel/cmd/cmd_time.c:8-25 *)
Definition set_time (now : clock) (s : list Z) : res (list Z * clock) :=
  r <- scan3 58 s ;;
  match r with
  | Some (hour, min, sec) =>
      if (hour <? 0) || (23 <? hour) || (min <? 0) || (59 <? min) || (sec <? 0) || (59 <? sec) then Ok (bad_time, now)
      else now' <- set_datetime now (yr now) (mon now) (dom now) hour min sec ;; Ok (crlf, now')
  | None => Ok (bad_time, now)
  end.

(* kernel/cmd/cmd_date.c:64 *)
Definition dotw_name : list (list Z) := map text ["Sun"; "Mon"; "Tue"; "Wed"; "Thu"; "Fri"; "Sat"]%string.

(* kernel/cmd/cmd_date.c:63-74.  The registers are never negative: %d prints
   digits. *)
Definition show_date (terse : bool) (now : clock) : res (list Z) :=
  if terse then
    Ok (pad_left 48 2 (digits (mon now)) ++ [47] ++ pad_left 48 2 (digits (dom now)) ++ [47] ++ pad_left 48 4 (digits (yr now)) ++ crlf ++ crlf)
  else
    name <- (match nth_error dotw_name (Z.to_nat (dow now)) with Some n => Ok n | None => Ub end) ;;
    Ok (text "Current Date: " ++ name ++ [32] ++ digits (mon now) ++ [47] ++ digits (dom now) ++ [47] ++ pad_left 48 4 (digits (yr now)) ++ crlf ++
        text "Type 'date MM/DD/YYYY' to change." ++ crlf ++ crlf).

(* kernel/cmd/cmd_time.c:63-80 *)
Definition show_time (terse : bool) (now : clock) : list Z :=
  let hms h := pad_left 48 2 (digits h) ++ [58] ++ pad_left 48 2 (digits (mn now)) ++ [58] ++ pad_left 48 2 (digits (sc now)) in
  if terse then hms (hr now) ++ crlf ++ crlf
  else
    let am_pm := if hr now <=? 11 then 65 else 80 in
    let hour := if hr now =? 0 then hr now + 12 else if 12 <? hr now then hr now - 12 else hr now in
    text "Current Time: " ++ hms hour ++ [32; am_pm; 77] ++ crlf ++ text "Type 'time hh:mm:ss' to change." ++ crlf ++ crlf.

(* { "help", FPM_NO_ARG, NULL, 'h' } and "ht" *)
Definition longs : list longopt := [Longopt (text "help") NO_ARG false 104].
Definition shorts : list Z := [104; 116].

(* The loop over the options, kernel/cmd/cmd_date.c:36-61 and
   kernel/cmd/cmd_time.c:36-61.  The text behind -h is left out, and so is
   the message of fpm_getopt before '?'.  [set], [show]: what to do with an
   argument, and at the end. *)
Inductive outcome := Help | Said (out : list Z) (now : clock).
Fixpoint command (fuel : nat) (set : list Z -> res (list Z * clock)) (show : bool -> res (list Z)) (now : clock)
    (argv : list (list Z)) (terse : bool) (o : opt) : res outcome :=
  match fuel with
  | O => NoFuel
  | S k =>
      o <- getopt argv (Some shorts) (Some longs) false o ;;
      if o_ret o <? 0 then out <- show terse ;; Ok (Said out now)
      else if o_ret o =? 1 then
        match o_arg o with
        | Some a => '(out, now') <- set a ;; Ok (Said out now')
        | None => Ub
        end
      else if o_ret o =? 63 then Ok (Said crlf now)
      else if o_ret o =? 116 then command k set show now argv true o
      else if o_ret o =? 104 then Ok Help
      else command k set show now argv terse o
  end.

(* fpm_cmd_date, kernel/cmd/cmd_date.c:27-75 *)
Definition cmd_date (fuel : nat) (now : clock) (argv : list (list Z)) : res outcome :=
  command fuel (set_date now) (fun terse => show_date terse now) now argv false opt0.

(* fpm_cmd_time, kernel/cmd/cmd_time.c:27-81 *)
Definition cmd_time (fuel : nat) (now : clock) (argv : list (list Z)) : res outcome :=
  command fuel (set_time now) (fun terse => Ok (show_time terse now)) now argv false opt0.

(* get_fattime, fatfs/fatfs.c:3396-3429.  The uint8_t variables take the low
   eight bits.  Shifting a set bit into the sign of an int is undefined in C
   before C23 only for the year, bits 25 to 31: gcc defines it, and so does
   this model. *)
Definition u8 (x : Z) : Z := x mod 256.
Definition get_fattime (now : clock) : Z :=
  Z.lor (Z.lor (Z.lor (Z.lor (Z.lor
    (Z.shiftl (Z.land 127 (u8 (yr now - 1980))) 25)
    (Z.shiftl (Z.land 15 (u8 (mon now))) 21))
    (Z.shiftl (Z.land 31 (u8 (dom now))) 16))
    (Z.shiftl (Z.land 31 (u8 (hr now))) 11))
    (Z.shiftl (Z.land 63 (u8 (mn now))) 5))
    (Z.land 31 (u8 (Z.quot (sc now) 2))).
