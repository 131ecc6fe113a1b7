(** Model of controller: ControllerComponent.cpp, modbus/ModbusTest*.cpp, ua/UaController*.cpp. *)
From Verif Require Import Base ModbusCodecModel ModbusClientModel.
Local Open Scope Z_scope.

(** The three layers of the OPC UA server. ControllerComponent.hpp:73-81 names them. *)
Inductive layer := LChannel | LTransport | LService.

(** Messages sent and calls on the timer. ControllerComponent.hpp:68-81, ModbusTestController.cpp:158-166. *)
Inductive kout :=
| KoModbusInit (servers clients : Z)                      (* MsgModbusInitReq *)
| KoModbusConfig (items : list (Z * bool * list Z))       (* MsgModbusConfigReq: id, client?, address *)
| KoModbusRelease                                         (* MsgModbusReleaseReq *)
| KoBatch (its : list item)                               (* MsgModbusClientAduReq *)
| KoReply (server session tid : Z) (ok : bool) (err : Z) (nbytes : Z) (data : list Z) (* MsgModbusAduRsp *)
| KoInit (l : layer)                                      (* MsgUa...InitReq *)
| KoConfig (l : layer) (addr : list Z)                    (* MsgUa...ConfigReq; an address for the transport only *)
| KoRelease (l : layer)                                   (* MsgUa...ReleaseReq *)
| KoTimerNew | KoTimerFree                                (* reactor timer taken, given back *)
| KoArm (us : Z) | KoDisarm
| KoThrow.

(** * ModbusTestController *)
(** The states: the class at line 8 of ModbusTestInit.hpp, ModbusTestConfigure.hpp, ModbusTestRun.hpp, ModbusTestSetup.hpp. *)
Inductive mst := MInit | MConfigure | MRun | MSetup.
(** Equality of states (model only). *)
Definition mst_eqb (a b : mst) : bool :=
  match a, b with MInit, MInit | MConfigure, MConfigure | MRun, MRun | MSetup, MSetup => true | _, _ => false end.

(** struct TestCase, ModbusTestController.hpp:67-86; [tc_ok]: status success. *)
Record tcase := mkTc {
  tc_client : Z; tc_addr : Z; tc_func : Z; tc_start : Z; tc_num : Z; tc_write : list Z;
  tc_err : Z; tc_ok : bool; tc_image : list Z
}.
(** Members, ModbusTestController.hpp:65-88; [m_timer]: the running interval, if any. *)
Record mtest := mkMt { m_st : mst; m_timer : option Z; m_count : Z; m_cases : list tcase }.
(** Assignment to the state (FsmBase.hpp:22-35). *)
Definition n_st c x := mkMt x (m_timer c) (m_count c) (m_cases c).
(** Assignment to the timer. ModbusTestController.cpp:158-166. *)
Definition n_timer c x := mkMt (m_st c) x (m_count c) (m_cases c).
(** Assignment to the counter. ModbusTestController.cpp:155, 244. *)
Definition n_count c x := mkMt (m_st c) (m_timer c) x (m_cases c).
(** Assignment to the test cases. ModbusTestController.cpp:44, 373, 388. *)
Definition n_cases c x := mkMt (m_st c) (m_timer c) (m_count c) x.

(** The test cases, ModbusTestController.cpp:44-110.  [g]: the first 2048 octets that rand() yields after srand(0); every
    randVector starts the sequence anew, ModbusTestController.cpp:27-36. *)
Definition read_regs (client addr start num err : Z) (ok : bool) (g : list Z) : tcase := mkTc client addr 4 start num [] err ok g.
(** A test case that presets one register, ModbusTestController.cpp:44-110. *)
Definition write_one (start num : Z) (n : nat) (ok : bool) (g : list Z) : tcase := mkTc 0 1 6 start num (firstn n g) 0 ok g.
(** A test case that presets several registers, ModbusTestController.cpp:44-110. *)
Definition write_many (start num : Z) (n : nat) (ok : bool) (g : list Z) : tcase := mkTc 0 1 16 start num (firstn n g) 0 ok g.
(** The table, ModbusTestController.cpp:44-110. *)
Definition test_cases (g : list Z) : list tcase :=
  [ write_many 890 120 240 true g;
    read_regs 0 1 0 126 0 false g;
    read_regs 0 1 10 10 4 true g;
    read_regs 0 1 890 120 0 true g;
    write_one 190 0 2 true g;
    write_one 190 10 2 false g;
    write_one 190 0 0 false g;
    write_many 890 120 240 true g;
    write_many 256 1 2 true g;
    write_many 256 1 4 false g;
    read_regs 0 1 10 125 0 true g;
    read_regs 0 1 0 0 0 true g;
    read_regs 99 1 10 125 0 false g;
    mkTc 0 1 99 10 125 [] 0 false g;
    read_regs 0 248 10 125 0 false g;
    write_one 190 0 2 false g ].
(** Constructor, ModbusTestController.cpp:39-44. *)
Definition m_new (g : list Z) : mtest := mkMt MInit None 0 (test_cases g).

(** ModbusTestController.hpp:59 *)
Definition runDelay : Z := 10000.
(** sendModbusConfigReq, ModbusTestController.cpp:177-209. *)
Definition modbusAddr : list Z := [127; 0; 0; 1; 47; 113].
(** A server and a client on the same address, ModbusTestController.cpp:177-209. *)
Definition config_items : list (Z * bool * list Z) := [(0, true, modbusAddr); (0, false, modbusAddr)].
(** sendModbusClientAduReq, ModbusTestController.cpp:211-240; transactId is the index. *)
Definition case_item (i : nat) (c : tcase) : item :=
  mkItem (tc_client c) (mkReq (Z.of_nat i) (tc_func c) (tc_addr c) (tc_start c) (tc_num c) (Z.of_nat (length (tc_write c))) (tc_write c)).
(** One item for each test case, ModbusTestController.cpp:211-240. *)
Fixpoint case_items (i : nat) (cs : list tcase) : list item :=
  match cs with [] => [] | c :: r => case_item i c :: case_items (S i) r end.

(** onEnter: ModbusTestInit.cpp:9-12, ModbusTestConfigure.cpp:9-12, ModbusTestRun.cpp:10-14, ModbusTestSetup.cpp:10-13. *)
Definition m_enter (c : mtest) : mtest * list kout :=
  match m_st c with
  | MInit => (c, [KoModbusRelease])
  | MConfigure => (c, [KoModbusConfig config_items])
  | MRun => (n_count c 0, [KoBatch (case_items 0 (m_cases c))])
  | MSetup => (n_timer c (Some runDelay), [KoArm runDelay])
  end.
(** onExit: ModbusTestSetup.cpp:25-28, ModbusTestRun.cpp (empty). *)
Definition m_exit (c : mtest) : mtest * list kout :=
  match m_st c with MSetup => (n_timer c None, [KoDisarm]) | _ => (c, []) end.
(** transit, ModbusTestFsm.hpp:28-43. *)
Definition m_transit (c : mtest) (st : mst) : mtest * list kout :=
  if mst_eqb (m_st c) st then (c, [])
  else let '(c1, o1) := m_exit c in let '(c2, o2) := m_enter (n_st c1 st) in (c2, o1 ++ o2).

(** MsgModbusClientAduRsp; [r_data]: the octets behind the header, at least [r_nbytes]. MsgModbusClientAduRsp.hpp:15-22. *)
Record crsp := mkCrsp { r_client : Z; r_tid : Z; r_err : Z; r_ok : bool; r_nbytes : Z; r_data : list Z }.
(** MsgModbusAduReq. MsgModbusAduReq.hpp:14-24. *)
Record mreq := mkMreq { a_server : Z; a_session : Z; a_tid : Z; a_func : Z; a_start : Z; a_num : Z; a_nbytes : Z; a_data : list Z }.

(** Result, ModbusTestController.hpp:25-30. *)
Inductive mres := MrNoerror | MrDone | MrError.
(** The functions that read registers, common/msg/types/ModbusFunction.hpp:8-18. *)
Definition is_reg_read (f : Z) : bool := (f =? 3) || (f =? 4).
(** Octets [off, off + n) of a vector; operator[] needs an existing element.  [None]: outside. ModbusTestController.cpp:278, 292, 306, 359. *)
Definition part (v : list Z) (off n : Z) : option (list Z) :=
  if (off <? Z.of_nat (length v)) && (off + n <=? Z.of_nat (length v)) then Some (firstn (Z.to_nat n) (skipn (Z.to_nat off) v)) else None.
(** Equality of octets: memcmp returns 0, ModbusTestController.cpp:278, 292, 306. *)
Definition zlist_eqb (a b : list Z) : bool := if list_eq_dec Z.eq_dec a b then true else false.
(** memcmp of the test data against the image, ModbusTestController.cpp:292, 306; [None]: element of an empty vector. *)
Definition same_write (t : tcase) : option bool :=
  match tc_write t with
  | [] => None
  | w => match part (tc_image t) (tc_start t * 2) (Z.of_nat (length w)) with Some d => Some (zlist_eqb w d) | None => None end
  end.
(** process(MsgModbusClientAduRsp), ModbusTestController.cpp:242-320.  [None]: access outside testCases or a vector. *)
Definition m_check (t : tcase) (r : crsp) : option bool :=
  if negb (tc_client t =? r_client r) then Some false
  else if negb (Bool.eqb (tc_ok t) (r_ok r)) then Some false
  else if negb (tc_err t =? r_err r) then Some false
  else if r_ok r && (r_err r =? 0) then
    if is_reg_read (tc_func t) then
      if negb (tc_num t * 2 =? r_nbytes r) then Some false
      else match part (tc_image t) (tc_start t * 2) (tc_num t * 2) with
           | Some d => Some (zlist_eqb (firstn (Z.to_nat (tc_num t * 2)) (r_data r)) d)
           | None => None
           end
    else if tc_func t =? 6 then if negb (2 =? r_nbytes r) then Some false else same_write t
    else if tc_func t =? 16 then if negb (0 =? r_nbytes r) then Some false else same_write t
    else Some false
  else Some true.
(** ModbusTestController.cpp:242-320. *)
Definition m_process (c : mtest) (r : crsp) : option (mtest * mres) :=
  let c1 := n_count c (u32 (m_count c + 1)) in
  match nth_error (m_cases c) (Z.to_nat (r_tid r)) with
  | None => None
  | Some t =>
      match m_check t r with
      | None => None
      | Some false => Some (c1, MrError)
      | Some true => Some (c1, if m_count c1 =? Z.of_nat (length (m_cases c)) then MrDone else MrNoerror)
      end
  end.

(** Octets available for the data of a MsgModbusAduRsp in its store of 4096 (the header takes 26). MsgModbusAduRsp.hpp:14-22, MsgStore.hpp:27, MaxMsgSize.hpp:6. *)
Definition replyRoom : Z := 4070.
(** Overwriting octets of a vector. ModbusTestController.cpp:373, 388. *)
Definition image_put (v : list Z) (off : Z) (d : list Z) : option (list Z) :=
  if (off <? Z.of_nat (length v)) && (off + Z.of_nat (length d) <=? Z.of_nat (length v)) then Some (buf_write v (Z.to_nat off) d) else None.
(** Replacing the register image of a test case (model only; the writes are ModbusTestController.cpp:373, 388). *)
Definition set_image (t : tcase) (v : list Z) : tcase :=
  mkTc (tc_client t) (tc_addr t) (tc_func t) (tc_start t) (tc_num t) (tc_write t) (tc_err t) (tc_ok t) v.
(** process(MsgModbusAduReq), ModbusTestController.cpp:342-407.  [None]: access outside testCases, an image, the message
    received or the message sent. *)
Definition m_serve (c : mtest) (q : mreq) : option (mtest * list kout) :=
  let i := Z.to_nat (a_tid q) in
  match nth_error (m_cases c) i with
  | None => None
  | Some t =>
      let reply nb d := KoReply (a_server q) (a_session q) (a_tid q) (tc_ok t) (tc_err t) nb d in
      if is_reg_read (a_func q) then
        let nb := u16 (a_num q * 2) in
        if replyRoom <? nb then None
        else match part (tc_image t) (a_start q * 2) nb with
             | Some d => Some (c, [reply nb d])
             | None => None
             end
      else if (a_func q =? 6) || (a_func q =? 16) then
        if (Z.of_nat (length (a_data q)) <? a_nbytes q) || ((a_func q =? 6) && (replyRoom <? a_nbytes q)) then None
        else let d := firstn (Z.to_nat (a_nbytes q)) (a_data q) in
             match image_put (tc_image t) (a_start q * 2) d with
             | Some v => Some (n_cases c (upd (m_cases c) i (set_image t v)),
                               [if a_func q =? 6 then reply (a_nbytes q) d else reply 0 []])
             | None => None
             end
      else Some (c, [reply 0 []])
  end.

(** Messages to the Modbus test controller. ModbusTestController.hpp:37-43 and 63. *)
Inductive tev := TvStart | TvStop | TvInitRsp | TvReleaseRsp | TvConfigRsp | TvRsp (r : crsp) | TvReq (q : mreq) | TvTimer.

(** The states: ModbusTestInit.cpp:14-33, ModbusTestConfigure.cpp:14-18 (the two seconds of sleep,
    ModbusTestController.cpp:336-340, are not modelled), ModbusTestRun.cpp:16-40, ModbusTestSetup.cpp:15-23; otherwise logged and
    ignored, ModbusTestState.hpp. *)
Definition m_step (c : mtest) (e : tev) : option (mtest * list kout) :=
  match e, m_st c with
  | TvStart, MInit => Some (c, [KoModbusInit 1 1])
  | TvStop, MInit => Some (c, [KoModbusRelease])
  | TvStop, MRun | TvStop, MSetup => Some (m_transit c MInit)
  | TvInitRsp, MInit => Some (m_transit c MConfigure)
  | TvConfigRsp, MConfigure => Some (m_transit c MRun)
  | TvRsp r, MRun =>
      match m_process c r with
      | None => None
      | Some (c1, MrNoerror) => Some (c1, [])
      | Some (c1, MrDone) => Some (m_transit c1 MSetup)
      | Some (c1, MrError) => Some (m_transit c1 MInit)
      end
  | TvReq q, MRun => m_serve c q
  | TvTimer, MSetup => Some (m_transit (n_timer c None) MRun)
  | TvTimer, _ => Some (n_timer c None, [])
  | _, _ => Some (c, [])
  end.

(** * UaController *)
(** UaController.cpp:70-81. *)
Definition uaAddr : list Z := [127; 0; 0; 1; 17; 17].
(** UaController.cpp:31-53. *)
Definition ua_start : list kout := [KoInit LChannel; KoInit LTransport; KoInit LService].
(** The release requests, UaController.cpp:43-53. *)
Definition ua_stop : list kout := [KoRelease LChannel; KoRelease LTransport; KoRelease LService].
(** UaControllerInited.cpp:7-20, UaController.cpp:55-59, 70-81, 91-95. *)
Definition ua_inited (l : layer) : list kout := [KoConfig l (match l with LTransport => uaAddr | _ => [] end)].

(** * ControllerComponent *)
(** [k_ua]: the UaController exists; it is in state Inited from the start request that created it on
    (UaControllerInit.cpp:8-12). *)
Record ctrl := mkK { k_modbus : option mtest; k_ua : bool }.
(** The controller before the start request. ControllerComponent.hpp:88-89. *)
Definition ctrl0 : ctrl := mkK None false.

(** [KStart tok]: the reactor has a free timer.  Config and release responses of the three layers are logged and ignored. ControllerComponent.hpp:43-58. *)
Inductive kev :=
| KStart (tok : bool) | KStop
| KModbus (e : tev)                (* responses, requests, expiry of the timer *)
| KInited (l : layer)              (* MsgUa...InitRsp *)
| KOtherUa.                        (* MsgUa...ConfigRsp, MsgUa...ReleaseRsp *)
(** Start and stop reach the Modbus test controller from inside the component only. ControllerComponent.cpp:43, 52. *)
Definition kev_ok (e : kev) : Prop := match e with KModbus TvStart | KModbus TvStop => False | _ => True end.

(** ControllerComponent.cpp:38-163.  make_unique runs before the old controller, if any, is destroyed.  [None]: null pointer
    (a stop without controllers), or outside the tables. *)
Definition k_step (g : list Z) (c : ctrl) (e : kev) : option (ctrl * list kout) :=
  match e with
  | KStart tok =>
      if negb tok then Some (c, [KoThrow])
      else match m_step (m_new g) TvStart with
           | None => None
           | Some (m, o) =>
               Some (mkK (Some m) true, [KoTimerNew] ++ (match k_modbus c with Some _ => [KoTimerFree] | None => [] end) ++ o ++ ua_start)
           end
  | KStop =>
      match k_modbus c with
      | None => None
      | Some m =>
          match m_step m TvStop with
          | None => None
          | Some (_, o) => if k_ua c then Some (mkK None false, o ++ [KoTimerFree] ++ ua_stop) else None
          end
      end
  | KModbus e =>
      match k_modbus c with
      | None => Some (c, [])
      | Some m => match m_step m e with Some (m', o) => Some (mkK (Some m') (k_ua c), o) | None => None end
      end
  | KInited l => Some (c, if k_ua c then ua_inited l else [])
  | KOtherUa => Some (c, [])
  end.
(** The timer expires only when armed. Timer.cpp:111-133. *)
Definition k_enabled (c : ctrl) (e : kev) : bool :=
  match e with
  | KModbus TvTimer => match k_modbus c with Some m => match m_timer m with Some _ => true | None => false end | None => false end
  | _ => true
  end.
