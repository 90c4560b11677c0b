(** * Model of the example programs fundu/examples/systemd.rs, gnu.rs and custom.rs

    The command line is taken for granted: a program is a function of its argument(s), which clap hands over as a String, i.e. as valid UTF-8.
    What a program prints is a list of lines. *)
From Verif Require Import Prelude Util Time Config Parse Standard Custom Misc.

(** std: str::trim, which removes the characters with the Unicode property White_Space at both ends. In UTF-8 they are encoded in one, two or three bytes:
    U+0009-U+000D and U+0020; U+0085 and U+00A0; U+1680, U+2000-U+200A, U+2028, U+2029, U+202F, U+205F and U+3000 *)
(* used by fundu/examples/systemd.rs:109, gnu.rs:137, custom.rs:97 *)
Definition white1 (x : byte) : bool := (x =? 32) || inb 9 13 x.
(* used by fundu/examples/systemd.rs:109, gnu.rs:137, custom.rs:97 *)
Definition white2 (x y : byte) : bool := (x =? 194) && ((y =? 133) || (y =? 160)).
(* used by fundu/examples/systemd.rs:109, gnu.rs:137, custom.rs:97 *)
Definition white3 (x y z : byte) : bool :=
  ((x =? 225) && (y =? 154) && (z =? 128)) ||
  ((x =? 226) && (y =? 128) && (inb 128 138 z || (z =? 168) || (z =? 169) || (z =? 175))) ||
  ((x =? 226) && (y =? 129) && (z =? 159)) ||
  ((x =? 227) && (y =? 128) && (z =? 128)).
(* str::trim_start *)
Fixpoint str_trim_start (l : str) : str :=
  match l with
  | [] => []
  | x :: l1 => if white1 x then str_trim_start l1 else
    match l1 with
    | [] => l
    | y :: l2 => if white2 x y then str_trim_start l2 else
      match l2 with
      | [] => l
      | z :: l3 => if white3 x y z then str_trim_start l3 else l
      end
    end
  end.
(* str::trim_end, on the reversed bytes *)
Fixpoint rev_trim_start (l : str) : str :=
  match l with
  | [] => []
  | x :: l1 => if white1 x then rev_trim_start l1 else
    match l1 with
    | [] => l
    | y :: l2 => if white2 y x then rev_trim_start l2 else
      match l2 with
      | [] => l
      | z :: l3 => if white3 z y x then rev_trim_start l3 else l
      end
    end
  end.
(* str::trim *)
Definition str_trim (l : str) : str := rev (rev_trim_start (rev (str_trim_start l))).

(** what is printed: the lines on the standard output, or a line on the standard error output *)
(* println! and eprintln!: no line of /repo *)
Inductive printed : Type := Lines (l : list str) | Complaint (l : str).
(* formatting with `{:>w}` of a text whose number of characters is [n]: no line of /repo *)
Definition pad (w : nat) (n : nat) (s : str) : str := repeat 32 (w - n) ++ s.

(** one `if secs >= U { result.push(format!(...)); secs %= U }`, where [word v] is written behind the number [v] *)
(* fundu/examples/systemd.rs:34-58, 64-71; gnu.rs:76-105 *)
Definition human_part (U : Z) (word : Z -> str) (st : list str * Z) : list str * Z :=
  let '(result, s) := st in
  if U <=? s then (result ++ [dec (s / U) ++ word (s / U)], s mod U) else (result, s).

(** the constants YEAR ... MINUTE: `Year.multiplier().0.unsigned_abs()` *)
(* fundu/examples/systemd.rs:18-23, gnu.rs:60-65 *)
Definition ex_secs (u : time_unit) : Z := Z.abs (coef (unit_multiplier u)).

(** the part for the seconds, which both programs share up to the words *)
(* fundu/examples/systemd.rs:32-61, gnu.rs:73-108 *)
Definition human_secs (word : time_unit -> Z -> str) (s0 : Z) : list str :=
  if 0 <? s0 then
    let st := human_part (ex_secs Year) (word Year) ([], s0) in
    let st := human_part (ex_secs Month) (word Month) st in
    let st := human_part (ex_secs Week) (word Week) st in
    let st := human_part (ex_secs Day) (word Day) st in
    let st := human_part (ex_secs Hour) (word Hour) st in
    let '(result, s) := human_part (ex_secs Minute) (word Minute) st in
    if 1 <=? s then result ++ [dec s ++ word Second s] else result
  else [].

(** ** fundu/examples/systemd.rs *)
(** the words of the text *)
(* fundu/examples/systemd.rs:34-74 the literals of format! *)
Definition sx_word (u : time_unit) (v : Z) : str :=
  match u with
  | Year => %"y" | Month => %"month" | Week => %"w" | Day => %"d" | Hour => %"h" | Minute => %"min" | Second => %"s"
  | MilliSecond => %"ms" | MicroSecond => %"us" | NanoSecond => %"ns"
  end.
(* fundu/examples/systemd.rs:17-78 make_human *)
Definition sx_make_human (d : std_duration) : str :=
  if std_is_zero d then %"0"
  else
    let result := human_secs sx_word (secs d) in
    let n0 := subsec d in
    let result :=
      if 0 <? n0 then
        let st := human_part 1000000 (sx_word MilliSecond) (result, n0) in
        let '(result, n) := human_part 1000 (sx_word MicroSecond) st in
        if 1 <=? n then result ++ [dec n ++ sx_word NanoSecond n] else result
      else result in
    join (%" ") result.
(* fundu/examples/systemd.rs:95 *)
Definition sx_delimiter (x : byte) : bool := (x =? 32) || (x =? 9) || (x =? 10) || (x =? 13).
(* fundu/examples/systemd.rs:96-104 *)
Definition sx_calls : list custom_builder_call :=
  [CB_time_units SYSTEMD_TIME_UNITS; CB_disable_exponent; CB_disable_infinity; CB_allow_time_unit_delimiter; CB_parse_multiple None;
   CB_inner_delimiter sx_delimiter; CB_outer_delimiter sx_delimiter].
(* fundu/examples/systemd.rs:96-104 *)
Definition sx_parser : custom_parser := cb_build (fold_left cb_call sx_calls cb_new).
(* fundu/examples/systemd.rs:109-117; `std::time::Duration::as_micros` is a u128. The text `μs` has two characters in three bytes *)
Definition sx_main (input : str) : res printed :=
  match cp_parse sx_parser (str_trim input) with
  | Ok duration =>
      let* d := match try_into_std duration with inl x => Ok x | inr _ => Crash CrashUnwrap end in
      Ok (Lines [pad 8 8 (%"Original") ++ %": " ++ input;
                 pad 8 2 [206; 188; 115] ++ %": " ++ dec (secs d * 1000000 + subsec d / 1000);
                 pad 8 5 (%"Human") ++ %": " ++ sx_make_human d])
  | Err error => Ok (Complaint (%"Failed to parse time span '" ++ input ++ %"': " ++ display_parse_error error))
  | Crash c => Crash c
  end.

(** ** fundu/examples/gnu.rs *)
(* fundu/examples/gnu.rs:15-24 the constants; `CustomTimeUnit::new` with a multiplier is evaluated at compile time *)
Definition gx_fortnight : res custom_time_unit := ctu_new Week [%"fortnight"; %"fortnights"] (Some (Mul 2 0)).
(* fundu/examples/gnu.rs:15-24 *)
Definition gx_time_units : res (list custom_time_unit) :=
  let* fortnight := gx_fortnight in
  Ok [ctu_with_default Second [%"sec"; %"secs"; %"second"; %"seconds"];
      ctu_with_default Minute [%"min"; %"mins"; %"minute"; %"minutes"];
      ctu_with_default Hour [%"hour"; %"hours"];
      ctu_with_default Day [%"day"; %"days"];
      ctu_with_default Week [%"week"; %"weeks"];
      fortnight;
      ctu_with_default Month [%"month"; %"months"];
      ctu_with_default Year [%"year"; %"years"]].
(* fundu/examples/gnu.rs:26-30 *)
Definition gx_keywords : res (list custom_time_unit) :=
  let* yesterday := ctu_new Day [%"yesterday"] (Some (Mul (-1) 0)) in
  let* tomorrow := ctu_new Day [%"tomorrow"] (Some (Mul 1 0)) in
  let* now := ctu_new Day [%"now"; %"today"] (Some (Mul 0 0)) in
  Ok [yesterday; tomorrow; now].
(* fundu/examples/gnu.rs:35-36 *)
Definition gx_delimiter (x : byte) : bool := (x =? 32) || (x =? 9) || (x =? 10) || (x =? 12) || (x =? 13) || (x =? 11).
(* fundu/examples/gnu.rs:38-48, 130-133 *)
Definition gx_calls (units keywords : list custom_time_unit) : list custom_builder_call :=
  [CB_allow_ago; CB_allow_time_unit_delimiter; CB_allow_negative; CB_disable_exponent; CB_disable_fraction; CB_disable_infinity; CB_number_is_optional;
   CB_inner_delimiter gx_delimiter; CB_outer_delimiter gx_delimiter; CB_parse_multiple None; CB_time_units units; CB_keywords keywords].
(* fundu/examples/gnu.rs:38-48, 130-133 *)
Definition gx_parser : res custom_parser :=
  let* units := gx_time_units in
  let* keywords := gx_keywords in
  Ok (cb_build (fold_left cb_call (gx_calls units keywords) cb_new)).
(* fundu/examples/gnu.rs:50-56 make_plural *)
Definition gx_make_plural (time : Z) (singular : str) : str := if 1 <? time then singular ++ %"s" else singular.
(* fundu/examples/gnu.rs:78-106 the literals *)
Definition gx_word (u : time_unit) (v : Z) : str :=
  gx_make_plural v
    (match u with
     | Year => %"year" | Month => %"month" | Week => %"week" | Day => %"day" | Hour => %"hour" | Minute => %"min" | _ => %"sec"
     end).
(* fundu/examples/gnu.rs:59-116 make_human *)
Definition gx_make_human (d : duration) : res str :=
  if is_zero d then Ok (%"0sec")
  else
    let* std := saturating_into_std (abs d) in
    let result := human_secs gx_word (secs std) in
    Ok (if is_negative d then %"-" ++ join (%" -") result else join (%" ") result).
(* fundu/examples/gnu.rs:134-153 *)
Definition gx_main (input : str) : res printed :=
  let* parser := gx_parser in
  match cp_parse parser (str_trim input) with
  | Ok duration =>
      let* std := saturating_into_std (abs duration) in
      let* human := gx_make_human duration in
      Ok (Lines [pad 8 8 (%"Original") ++ %": " ++ input;
                 pad 8 7 (%"Seconds") ++ %": " ++ (if is_negative duration then %"-" ++ dec (secs std) else dec (secs std));
                 pad 8 5 (%"Human") ++ %": " ++ human])
  | Err error => Ok (Complaint (%"Failed to parse relative time '" ++ input ++ %"': " ++ display_parse_error error))
  | Crash c => Crash c
  end.

(** ** fundu/examples/custom.rs *)
(* fundu/examples/custom.rs:37-64 *)
Definition kx_time_units : res (list custom_time_unit) :=
  let* fortnight := ctu_new Week [%"f"; %"fortnight"; %"fortnights"] (Some (Mul 2 0)) in
  let* month := ctu_new Second [%"M"; %"mon"; %"month"; %"months"] (Some (Mul 236059151 (-2))) in
  let* year := ctu_new Second [%"y"; %"yr"; %"year"; %"years"] (Some (Mul 3155814976 (-2))) in
  Ok [ctu_with_default NanoSecond [%"ns"; %"nano"; %"nanos"];
      ctu_with_default MicroSecond [[194; 181; 115]; %"Ms"; %"micro"; %"micros"];   (* "µs" *)
      ctu_with_default MilliSecond [%"ms"; %"milli"; %"millis"];
      ctu_with_default Second [%"s"; %"sec"; %"secs"; %"second"; %"seconds"];
      ctu_with_default Minute [%"m"; %"min"; %"mins"; %"minutes"];
      ctu_with_default Hour [%"h"; %"hr"; %"hrs"; %"hour"; %"hours"];
      ctu_with_default Day [%"d"; %"day"; %"days"];
      ctu_with_default Week [%"w"; %"week"; %"weeks"];
      fortnight; month; year].
(* fundu/examples/custom.rs:77 *)
Definition kx_delimiter (x : byte) : bool := (x =? 9) || (x =? 10) || (x =? 13) || (x =? 32).
(* fundu/examples/custom.rs:72-78 *)
Definition kx_calls (units : list custom_time_unit) : list custom_builder_call :=
  [CB_time_units units; CB_default_unit NanoSecond; CB_disable_exponent; CB_allow_time_unit_delimiter; CB_inner_delimiter kx_delimiter].
(* fundu/examples/custom.rs:72-78 *)
Definition kx_parser : res custom_parser := let* units := kx_time_units in Ok (cb_build (fold_left cb_call (kx_calls units) cb_new)).
(* `{:21}` and `{:09}` of an unsigned integer: fundu/examples/custom.rs:101 *)
Definition padded (fill : byte) (w : nat) (x : Z) : str := repeat fill (w - length (dec x)) ++ dec x.
(** the number of characters of a text: the bytes which are no continuation bytes *)
(* std: str::chars().count(), by which `{:>20}` pads *)
Definition char_count (s : str) : nat := length (filter (fun x => negb (cont x)) s).
(* fundu/examples/custom.rs:97-109 the lines for one argument *)
Definition kx_line (parser : custom_parser) (input : str) : res printed :=
  match cp_parse parser (str_trim input) with
  | Ok duration =>
      let* d := match try_into_std duration with inl x => Ok x | inr _ => Crash CrashUnwrap end in
      Ok (Lines [pad 20 (char_count input) input ++ %"|" ++ padded 32 21 (secs d) ++ %"." ++ padded 48 9 (subsec d)])
  | Err error => Ok (Complaint (%"Error parsing '" ++ input ++ %"': " ++ display_parse_error error))
  | Crash c => Crash c
  end.
(* fundu/examples/custom.rs:90-111 the loop over the arguments: the first panic ends the program *)
Fixpoint kx_loop (parser : custom_parser) (inputs : list str) : res (list printed) :=
  match inputs with
  | [] => Ok []
  | input :: l => let* x := kx_line parser input in let* r := kx_loop parser l in Ok (x :: r)
  end.
(* fundu/examples/custom.rs:66-112; there is at least one argument *)
Definition kx_main (inputs : list str) : res (list printed) :=
  let* parser := kx_parser in
  let* r := kx_loop parser inputs in
  Ok (Lines [%"A simple calculator to calculate the input duration to seconds (Default time unit is the nano second):"; [];
             pad 20 5 (%"Input") ++ %"|" ++ pad 31 17 (%"Result in seconds");
             repeat 45 20 ++ %"|" ++ repeat 45 31] :: r).
