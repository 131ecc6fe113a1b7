(** Specification vocabulary for the started and stopped application. *)
From Verif Require Import Base ControllerModel ModbusCompModel AppModel.
Local Open Scope Z_scope.

(** Messages that start, stop, create, configure or release the OPC UA server. *)
Definition about_ua (m : amsg) : bool :=
  match m with GStart | GStop | GInit _ | GConfig _ _ | GRelease _ | GInited _ | GReleased _ => true | _ => false end.
(** ... and those that do so with the Modbus component; everything else is requests and responses. *)
Definition about_modbus (m : amsg) : bool :=
  match m with
  | GModbusInit _ _ | GModbusConfig _ | GModbusRelease => true
  | GFromModbus e => match e with TvRsp _ | TvReq _ | TvTimer => false | _ => true end
  | _ => false
  end.
Definition in_flight (s : app) : list amsg :=
  x_m (p_q s) ++ x_u (p_q s) ++ x_c (p_q s) ++ x_m (p_out s) ++ x_u (p_out s) ++ x_c (p_out s).
Definition ua_settled (s : app) : Prop := forall m, In m (in_flight s) -> about_ua m = false.
Definition settled (s : app) : Prop := forall m, In m (in_flight s) -> about_ua m = false /\ about_modbus m = false.

(** The environment grants what is asked: no message about start-up or shut-down finds a full queue, there is a free timer and a
    free acceptor, and the OPC UA port can be bound. *)
Definition granted (s : app) (e : aev) : Prop :=
  match e with
  | ACmd _ kept => kept = true
  | APut r kept => kept = true \/ match at_r (p_out s) r with m :: _ => about_ua m = false /\ about_modbus m = false | [] => True end
  | ATakeC tok => tok = true
  | ATakeU acc lis => acc = true /\ lis = true
  | _ => True
  end.

(** Finite histories. *)
Inductive areach (g : list Z) : app -> list aev -> Prop :=
| ar_new : areach g app0 []
| ar_step s tr e s' : areach g s tr -> granted s e -> astep g s e = ANext s' -> areach g s' (tr ++ [e]).
(** The last command given by main, if any: [true] start, [false] stop. *)
Definition last_cmd (tr : list aev) : option bool := fold_left (fun c e => match e with ACmd b _ => Some b | _ => c end) tr None.

(** The OPC UA server is up: all layers exist and 127.0.0.1:4369 is open; or it is gone. *)
Definition serving (s : app) : Prop := p_port s = PListen [127; 0; 0; 1; 17; 17] /\ p_chan s = true /\ p_svc s = true.
Definition gone (s : app) : Prop := p_port s = PNone /\ p_chan s = false /\ p_svc s = false.

(** Infinite executions; [None]: nothing happens for a while. *)
Record execution (g : list Z) (st : nat -> app) (ev : nat -> option aev) : Prop := {
  ex_start : st 0%nat = app0;
  ex_step : forall n, match ev n with
                      | Some e => astep g (st n) e = ANext (st (S n)) /\ granted (st n) e
                      | None => st (S n) = st n
                      end
}.
(** No reactor stops working: it again and again takes a message or has none, and hands over a message or has none. *)
Definition takes (r : rx) (e : option aev) : Prop :=
  match e, r with Some (ATakeC _), RCtrl | Some (ATakeU _ _), RUa | Some (ATakeM _), RModbus => True | _, _ => False end.
Definition puts (r : rx) (e : option aev) : Prop := match e with Some (APut r' _) => r' = r | _ => False end.
Definition fair (st : nat -> app) (ev : nat -> option aev) : Prop := forall r n,
  (exists m, (n <= m)%nat /\ (takes r (ev m) \/ at_r (p_q (st m)) r = [])) /\
  (exists m, (n <= m)%nat /\ (puts r (ev m) \/ at_r (p_out (st m)) r = [])).
Definition last_command (ev : nat -> option aev) (k : nat) (start : bool) : Prop :=
  (exists kept, ev k = Some (ACmd start kept)) /\ forall n, (k < n)%nat -> match ev n with Some (ACmd _ _) => False | _ => True end.

(** Moves of the start-up or shut-down: a message about it is handed over or handled. *)
Definition head_life (l : list amsg) : bool := match l with m :: _ => about_ua m || about_modbus m | [] => false end.
Definition life_move (s : app) (e : aev) : bool :=
  match e with
  | APut r _ => head_life (at_r (p_out s) r)
  | ATakeC _ => head_life (x_c (p_q s))
  | ATakeU _ _ => head_life (x_u (p_q s))
  | ATakeM _ => head_life (x_m (p_q s))
  | _ => false
  end.
Definition is_cmd (e : aev) : bool := match e with ACmd _ _ => true | _ => false end.
(** Any history from a state, whatever the environment answers, with the number of such moves. *)
Inductive goes (g : list Z) : app -> list aev -> nat -> app -> Prop :=
| go_nil s : goes g s [] 0 s
| go_step s e s1 tr n s2 : astep g s e = ANext s1 -> goes g s1 tr n s2 -> goes g s (e :: tr) ((if life_move s e then 1 else 0) + n) s2.

(** Histories in which no stop request is taken while the Modbus self-test waits for its configuration. *)
Definition calm (s : app) (e : aev) : Prop :=
  match e, x_c (p_q s), k_modbus (p_ctrl s) with ATakeC _, GStop :: _, Some m => m_st m <> MConfigure | _, _, _ => True end.
Inductive creach (g : list Z) : app -> list aev -> Prop :=
| cr_new : creach g app0 []
| cr_step s tr e s' : creach g s tr -> granted s e -> calm s e -> astep g s e = ANext s' -> creach g s' (tr ++ [e]).

(** Infinite executions in any environment. *)
Record wild_execution (g : list Z) (st : nat -> app) (ev : nat -> option aev) : Prop := {
  wx_start : st 0%nat = app0;
  wx_step : forall n, match ev n with Some e => astep g (st n) e = ANext (st (S n)) | None => st (S n) = st n end
}.

(** What the controller last asked of the Modbus component, in a history from [s]: [true] to be created, [false] to be released. *)
Definition asks (b : bool) (m : amsg) : bool := match m with GModbusInit _ _ => true | GModbusRelease => false | _ => b end.
Fixpoint asked (g : list Z) (s : app) (tr : list aev) (b : bool) : bool :=
  match tr with
  | [] => b
  | e :: r => match astep g s e with
              | ANext s' => asked g s' r (match e with ATakeC _ | ATick => fold_left asks (x_c (p_out s')) b | _ => b end)
              | _ => b
              end
  end.
