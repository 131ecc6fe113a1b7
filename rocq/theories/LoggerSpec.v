(** Specification vocabulary for the logger. *)
From Coq Require Import String Ascii.
From Verif Require Import Base ModbusCodecModel LoggerModel.
Local Open Scope string_scope.
Local Open Scope list_scope.
Local Open Scope Z_scope.

(** The octets a dumping statement can print. *)
Definition dumped (l : list Z) : Prop :=
  bytes_ok l /\ ((exists q, tx_request q = Some l) \/ (exists a, tx_reply a = Some l) \/ (exists buf len got, 0 <= len /\ rx_frame buf len got = Some l)).
Definition from (s : source) (t : string) : Prop := match s with SName ns => In t ns | SDump => exists l, dumped l /\ t = dump l end.

(** Arguments of the types the format asks for, as far as there are arguments. *)
Fixpoint typed (ps : list piece) (ss : list source) (a : list larg) : Prop :=
  match ps, a with
  | [], _ | _, [] | PBad :: _, _ => True
  | PChar _ :: r, _ => typed r ss a
  | PU :: r, AU n :: a => 0 <= n < 4294967296 /\ typed r ss a
  | PD :: r, AD n :: a => -2147483648 <= n < 2147483648 /\ typed r ss a
  | PZu :: r, AZ n :: a => 0 <= n < 18446744073709551616 /\ typed r ss a
  | PS :: r, AS t :: a => match ss with s :: ss => from s t /\ typed r ss a | [] => True end
  | _, _ => False
  end.
Definition executed (s : site) (a : list larg) : Prop := length a = s_argc s /\ typed (pieces (s_fmt s)) (s_src s) a.

(** Which statements print. *)
Definition shown (lv : levels) (s : site) : bool := rank (lv (s_task s)) <=? rank (s_level s).

(** Reading a number back. *)
Fixpoint value (acc : Z) (s : string) : Z :=
  match s with EmptyString => acc | String c r => value (acc * 10 + (Z.of_nat (nat_of_ascii c) - 48)) r end.

(** The lines of an output; [None] if the last is not ended. *)
Fixpoint lines (s : string) : option (list string) :=
  match s with
  | EmptyString => Some []
  | String c r =>
      if (c =? newline)%char then option_map (cons "") (lines r)
      else match lines r with
           | Some (l :: ls) => Some (String c l :: ls)
           | _ => None
           end
  end.
Definition time_ok (t : ltime) : Prop :=
  1 <= t_day t <= 31 /\ 1 <= t_mon t <= 12 /\ 0 <= t_hour t <= 23 /\ 0 <= t_min t <= 59 /\ 0 <= t_sec t <= 60 /\ 0 <= t_ms t <= 999 /\ -2147481748 <= t_year t <= 2147485547.
(** The line of a statement, without its end. *)
Definition entry (t : ltime) (s : site) (m : string) : string :=
  stamp t +++ "." +++ dec3 (t_ms t) +++ " " +++ level_name (s_level s) +++ " [" +++ task_name (s_task s) +++ "] " +++ base_name (s_file s) +++ " " +++ sdec (s_line s) +++ ": " +++ m.
