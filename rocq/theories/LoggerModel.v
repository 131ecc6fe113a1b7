(** Model of common/logger/Logger.hpp and Logger.cpp: the macro LM, which formats a message into a buffer on the stack, and
    Logger::dispatch, which prints it. *)
From Coq Require Import String Ascii.
From Verif Require Import Base ModbusCodecModel ModbusClientModel ModbusServerModel.
Local Open Scope string_scope.
Local Open Scope list_scope.
Local Open Scope Z_scope.
Infix "+++" := append (at level 60, right associativity).

(** The tasks, Logger.hpp:11-22. *)
Inductive ltask := TGEN | TCTRL | TMODBUS | TUATL | TUASC | TUASRV | TUA.
(** The levels, Logger.hpp:24-31. *)
Inductive llevel := LD | LI | LW | LE | NA.
(** The order of the enumerators, Logger.hpp:24-31. *)
Definition rank (l : llevel) : Z := match l with LD => 0 | LI => 1 | LW => 2 | LE => 3 | NA => 4 end.
(** Equality of tasks (model only). *)
Definition task_eqb (a b : ltask) : bool :=
  match a, b with
  | TGEN, TGEN | TCTRL, TCTRL | TMODBUS, TMODBUS | TUATL, TUATL | TUASC, TUASC | TUASRV, TUASRV | TUA, TUA => true
  | _, _ => false
  end.
(** The vector of levels, one for each task, Logger.cpp:59-65 and 73-81. *)
Definition levels := ltask -> llevel.
(** Logger::setTaskLogLevel, Logger.cpp:73-76. *)
Definition set_level (lv : levels) (t : ltask) (l : llevel) : levels := fun x => if task_eqb x t then l else lv x.
(** The levels as constructed, Logger.cpp:59-65. *)
Definition levels0 : levels := set_level (set_level (fun _ => LD) TMODBUS NA) TCTRL NA.

(** toString of a level, Logger.cpp:14-30. *)
Definition level_name (l : llevel) : string := match l with LD => "DBG" | LI => "INF" | LW => "WRN" | LE => "ERR" | NA => "NA" end.
(** toString of a task, Logger.cpp:32-54. *)
Definition task_name (t : ltask) : string :=
  match t with TGEN => "GEN" | TCTRL => "CTRL" | TMODBUS => "MODBUS" | TUA => "UA" | TUATL => "UATL" | TUASC => "UASC" | TUASRV => "UASRV" end.

(** ** sprintf, the conversions used *)
(** Model only. *)
Definition digit (d : Z) : ascii := ascii_of_nat (48 + Z.to_nat d).
(** Digits from the right (the C library's sprintf). Model only. *)
Fixpoint dec_go (fuel : nat) (n : Z) (acc : string) : string :=
  match fuel with
  | O => acc
  | S f => let acc := String (digit (n mod 10)) acc in if n <? 10 then acc else dec_go f (n / 10) acc
  end.
(** Decimal; twenty digits are enough for 64 bits. Model only. *)
Definition dec (n : Z) : string := dec_go 20 n "".
(** "%d" (the C library's sprintf). Model only. *)
Definition sdec (n : Z) : string := if n <? 0 then String "-" (dec (- n)) else dec n.

(** What a format consists of: ordinary characters, the conversions used, and anything else. Model only. *)
Inductive piece := PChar (c : ascii) | PU | PD | PZu | PS | PBad.
(** Splitting a format into them (the C library's sprintf). Model only. *)
Fixpoint pieces (f : string) : list piece :=
  match f with
  | EmptyString => []
  | String c r =>
      if (c =? "%")%char then
        match r with
        | String d r1 =>
            if (d =? "u")%char then PU :: pieces r1
            else if (d =? "d")%char then PD :: pieces r1
            else if (d =? "s")%char then PS :: pieces r1
            else match r1 with
                 | String e r2 => (if (d =? "z")%char && (e =? "u")%char then PZu else PBad) :: pieces r2
                 | EmptyString => [PBad]
                 end
        | EmptyString => [PBad]
        end
      else PChar c :: pieces r
  end.

(** An argument: unsigned, int, size_t, a string. Model only. *)
Inductive larg := AU (n : Z) | AD (n : Z) | AZ (n : Z) | AS (s : string).
(** [None]: undefined behaviour (a conversion without its argument).  Further arguments are ignored. Model only. *)
Fixpoint render (ps : list piece) (a : list larg) : option string :=
  match ps with
  | [] => Some ""
  | PChar c :: r => match render r a with Some s => Some (String c s) | None => None end
  | PU :: r => match a with AU n :: a => match render r a with Some s => Some (dec n +++ s) | None => None end | _ => None end
  | PD :: r => match a with AD n :: a => match render r a with Some s => Some (sdec n +++ s) | None => None end | _ => None end
  | PZu :: r => match a with AZ n :: a => match render r a with Some s => Some (dec n +++ s) | None => None end | _ => None end
  | PS :: r => match a with AS t :: a => match render r a with Some s => Some (t +++ s) | None => None end | _ => None end
  | PBad :: _ => None
  end.

(** ** The log statements *)
(** std::hex, as used by PduBuffer::toString, modbus/PduBuffer.hpp:97. *)
Definition hexdigit (d : Z) : ascii := if d <? 10 then digit d else ascii_of_nat (87 + Z.to_nat d).
(** PduBuffer::toString, PduBuffer.hpp:92-100: a colon and two hexadecimal digits for each octet. *)
Fixpoint dump (l : list Z) : string :=
  match l with
  | [] => ""
  | b :: r => String ":" (String (hexdigit (b / 16)) (String (hexdigit (b mod 16)) (dump r)))
  end.

(** A log statement: where it is, its task, level and format, where the strings it prints come from (some literals, or the dump of
    a Modbus buffer), the number of arguments it passes.  That integers have the type of their conversion is left to the compiler. Logger.hpp:33. *)
Inductive source := SName (ns : list string) | SDump.
(** The record of one LM(...) in the source; the table is LoggerSites.v. Logger.hpp:33-41. *)
Record site := mkSite { s_file : string; s_line : Z; s_task : ltask; s_level : llevel; s_fmt : string; s_src : list source; s_argc : nat }.

(** The macro, Logger.hpp:33-41: [temporary___] has 1024 octets, sprintf writes the message and a zero behind it. *)
Definition tmpLen : Z := 1024.
(** What a log statement does: nothing, prints, writes outside its buffer, or has an argument too few. Model only. *)
Inductive lout := LSkip | LMsg (m : string) | LOverrun | LUndefined.
(** Logger.hpp:33-41. *)
Definition lm (lv : levels) (s : site) (a : list larg) : lout :=
  if rank (lv (s_task s)) <=? rank (s_level s) then
    match render (pieces (s_fmt s)) a with
    | None => LUndefined
    | Some m => if Z.of_nat (String.length m) + 1 <=? tmpLen then LMsg m else LOverrun
    end
  else LSkip.

(** What the four statements that dump a buffer dump.
    ModbusClient.cpp:55-66 and 84-137, ModbusSession.cpp:86-130 and 170-198; nothing when the statement is not reached. *)
Definition tx_request (q : adu_req) : option (list Z) := match encode_req q with EncOk bs => Some bs | _ => None end.
(** The octets dumped when a session replies: encoded and valid, ModbusSession.cpp:181-198. *)
Definition tx_reply (a : adu_rsp) : option (list Z) :=
  match encode_rsp a with EncOk bs => if isAduValid bs (Z.of_nat (Datatypes.length bs)) then Some bs else None | _ => None end.
(** [len] octets in the buffer [buf], of which [got] arrive now. ModbusClient.cpp:84-137, ModbusSession.cpp:86-130. *)
Definition rx_frame (buf : list Z) (len : Z) (got : list Z) : option (list Z) :=
  if maxAduLen <? len then None
  else let bs := firstn (Z.to_nat (bufMaxLen - len)) got in
       let b := buf_write buf (Z.to_nat len) bs in
       let n := len + Z.of_nat (Datatypes.length bs) in
       match frame_check b n with FrComplete => Some (firstn (Z.to_nat n) b) | _ => None end.

(** ** dispatch, Logger.cpp:83-99 *)
(** strrchr(file, '/') and what follows it, Logger.cpp:95-96. *)
Fixpoint after_slash (f : string) : option string :=
  match f with
  | EmptyString => None
  | String c r => match after_slash r with Some x => Some x | None => if (c =? "/")%char then Some r else None end
  end.
(** The file name printed, Logger.cpp:95-96. *)
Definition base_name (f : string) : string := match after_slash f with Some x => x | None => f end.
(** Two digits with a leading zero (the C library's strftime, Logger.cpp:94). *)
Definition dec2 (n : Z) : string := String (digit (n / 10)) (String (digit (n mod 10)) "").
(** "%03ld" (the C library's printf, Logger.cpp:98). *)
Definition dec3 (n : Z) : string := String (digit (n / 100)) (dec2 (n mod 100)).
(** Local time: strftime with "%d-%m-%Y %H:%M:%S", and milliseconds. Logger.cpp:89-94. *)
Record ltime := mkTime { t_day : Z; t_mon : Z; t_year : Z; t_hour : Z; t_min : Z; t_sec : Z; t_ms : Z }.
(** The time printed, Logger.cpp:87-98. *)
Definition stamp (t : ltime) : string :=
  dec2 (t_day t) +++ "-" +++ dec2 (t_mon t) +++ "-" +++ sdec (t_year t) +++ " " +++ dec2 (t_hour t) +++ ":" +++ dec2 (t_min t) +++ ":" +++ dec2 (t_sec t).
(** The end of the line printed, Logger.cpp:98. *)
Definition newline : ascii := ascii_of_nat 10.
(** printf "%s.%03ld %s [%s] %s %d: %s\n", Logger.cpp:98. *)
Definition log_line (t : ltime) (s : site) (m : string) : string :=
  stamp t +++ "." +++ dec3 (t_ms t) +++ " " +++ level_name (s_level s) +++ " [" +++ task_name (s_task s) +++ "] " +++ base_name (s_file s) +++ " " +++ sdec (s_line s) +++ ": " +++ m +++ String newline "".

(** A history of log statements, in the order in which they get the mutex; [None] after undefined behaviour. Logger.cpp:83-99. *)
Fixpoint log_run (lv : levels) (h : list (ltime * site * list larg)) : option string :=
  match h with
  | [] => Some ""
  | (t, s, a) :: r =>
      match lm lv s a, log_run lv r with
      | LSkip, Some o => Some o
      | LMsg m, Some o => Some (log_line t s m +++ o)
      | _, _ => None
      end
  end.
