(** Model of scouterx/common/util: hexautil.go, iputil.go, timeutil.go, and of the library functions
    they call (strconv.FormatInt, strings.Split, strconv.ParseUint, fmt %d). *)
From Verif Require Import GoInt.

(** digit characters of strconv: 0-9 then a-z; called in hexautil.go:8-15 *)
Definition digit_char (d : Z) : Z := if d <? 10 then 48 + d else 87 + d.

(** strconv.FormatUint: least significant digit is produced first and prepended; called in hexautil.go:8-15 *)
Fixpoint format_fuel (fuel : nat) (base z : Z) (acc : gostring) : gostring :=
  match fuel with
  | O => acc
  | S f => let acc' := digit_char (z mod base) :: acc in
           if z <? base then acc' else format_fuel f base (z / base) acc'
  end.
(** [z >= 0]; one digit per binary digit is always enough; called in hexautil.go:8-15 *)
Definition format_uint (base z : Z) : gostring := format_fuel (S (Z.to_nat (Z.log2 z))) base z [].
(** strconv.FormatInt; fmt's %d is the same with base 10; called in hexautil.go:8-15, decimalvalue.go:46-49, alertpack.go:46-52 *)
Definition format_int (base z : Z) : gostring :=
  if z <? 0 then 45 :: format_uint base (- z) else format_uint base z.

(** hexautil.go:8-15; -num is computed in int64 and wraps for the smallest number *)
Definition int_to_xlog_string32 (num : Z) : gostring :=
  if num <? 0 then 122 :: format_int 32 (int64 (- num)) else 120 :: format_int 32 num.

(** strings.Split(s, sep) for a one-byte separator; called in iputil.go:10-24, configure.go:229-232 *)
Fixpoint split_go (sep : Z) (cur : gostring) (s : gostring) : list gostring :=
  match s with
  | [] => [rev cur]
  | c :: s' => if c =? sep then rev cur :: split_go sep [] s' else split_go sep (c :: cur) s'
  end.
(** strings.Split(s, sep) for a one-byte separator: iputil.go:10-24, configure.go:229-232 *)
Definition split_byte (sep : Z) (s : gostring) : list gostring := split_go sep [] s.

(** strconv.ParseUint(part, 10, 8): empty, a non-digit, or a value over 255 is an error; called in iputil.go:10-24 *)
Fixpoint parse_uint8_loop (n : Z) (s : gostring) : option Z :=
  match s with
  | [] => Some n
  | c :: s' => if (48 <=? c) && (c <=? 57)
               then let n1 := n * 10 + (c - 48) in
                    if n1 >? 255 then None else parse_uint8_loop n1 s'
               else None
  end.
(** strconv.ParseUint(part, 10, 8): iputil.go:10-24 *)
Definition parse_uint8 (s : gostring) : option Z :=
  match s with [] => None | _ => parse_uint8_loop 0 s end.

(** iputil.go:14-22: the loop over the parts *)
Fixpoint ip_loop (parts : list gostring) : option bytes :=
  match parts with
  | [] => Some []
  | p :: ps => match parse_uint8 p with
               | Some v => match ip_loop ps with Some r => Some (v :: r) | None => None end
               | None => None
               end
  end.
(** iputil.go:10-24 *)
Definition ip_to_bytes (ip : gostring) : bytes :=
  let split := split_byte 46 ip in
  if zlen split =? 4 then match ip_loop split with Some r => r | None => [0; 0; 0; 0] end
  else [0; 0; 0; 0].

(** timeutil.go:13-19; int64 division truncates towards zero.  (All intermediate values are within
    int64 for a non-negative argument.) *)
Definition get_duration (seconds : Z) : gostring :=
  let day := Z.quot seconds 86400 in
  let hour := Z.quot (seconds - day * 86400) 3600 in
  let min := Z.quot (seconds - day * 86400 - hour * 3600) 60 in
  let secs := seconds - day * 86400 - hour * 3600 - min * 60 in
  format_int 10 day ++ of_string "D " ++ format_int 10 hour ++ of_string "H " ++
  format_int 10 min ++ of_string "M " ++ format_int 10 secs ++ of_string "S".

(** time.Time.Sub saturates; times are nanosecond counts; timeutil.go:21-27 *)
Definition time_sub (to from : Z) : Z :=
  let d := to - from in
  if d <? -9223372036854775808 then -9223372036854775808
  else if d >? 9223372036854775807 then 9223372036854775807 else d.
(** timeutil.go:21-23; Duration.Milliseconds divides by 1e6, truncating *)
Definition millis_between (from to : Z) : Z := int32 (Z.quot (time_sub to from) 1000000).
(** timeutil.go:29-31; time.UnixNano is defined for the years 1678 to 2262 *)
Definition time_to_millis (t : Z) : Z := Z.quot t 1000000.
