(** Theorems about the logger, C143-C145. *)
From Coq Require Import String Ascii.
From Verif Require Import Base ModbusCodecModel ModbusClientModel ModbusServerModel LoggerModel LoggerSites LoggerSpec LoggerProofs.
Local Open Scope string_scope.
Local Open Scope list_scope.
Local Open Scope Z_scope.

(** * C143 *)

(** Whatever the levels and the values, every log statement of the application has an argument for each conversion of its format, and the
    message with its terminating zero fits the buffer it is formatted into. *)
Theorem C143_fits lv s a : In s sites -> executed s a -> lm lv s a <> LOverrun /\ lm lv s a <> LUndefined.
Proof. intros Hs X. destruct (lm_spec lv s a Hs X) as (m & _ & ->). destruct (shown lv s); split; discriminate. Qed.

(** The buffer sizes behind it: what is dumped has at most 260 octets, although the buffers hold 512; 342 would be too many. *)
Theorem C143_dumps l : dumped l -> Z.of_nat (List.length l) <= 260.
Proof. apply dumped_len. Qed.
Theorem C143_room lv l n : (lv TMODBUS) = LD -> 0 <= n < 4294967296 -> 342 <= Z.of_nat (List.length l) ->
  lm lv (mkSite "modbus/server/session/ModbusSession.cpp" 130 TMODBUS LD "Session-%u, RX PDU %s" [SDump] 2) [AU n; AS (dump l)] = LOverrun.
Proof.
  intros Hl Hn H. unfold lm. cbn [s_task s_level s_fmt]. rewrite Hl. cbn [rank Z.leb Z.compare]. change (pieces "Session-%u, RX PDU %s") with
    (map PChar (list_ascii_of_string "Session-") ++ PU :: map PChar (list_ascii_of_string ", RX PDU ") ++ [PS]).
  cbn [list_ascii_of_string map List.app render]. match goal with |- context [?x <=? _] => assert (B : 1024 < x) end; [|unfold tmpLen; destruct (Z.leb_spec (Z.of_nat (String.length (String "S" (String "e" (String "s" (String "s" (String "i" (String "o" (String "n" (String "-" (dec n +++ String "," (String " " (String "R" (String "X" (String " " (String "P" (String "D" (String "U" (String " " (dump l +++ ""))))))))))))))))))) + 1) 1024); [lia|reflexivity]].
  match goal with |- 1024 < Z.of_nat (String.length ?m) + 1 => change (1024 < slen m + 1) end. rewrite !slen_cons, slen_app, !slen_cons, slen_app, dump_len. pose proof (slen_nonneg (dec n)). change (slen "") with 0. lia.
Qed.

Example C143_case : In (mkSite "modbus/server/session/ModbusSession.cpp" 130 TMODBUS LD "Session-%u, RX PDU %s" [SDump] 2) sites /\
  executed (mkSite "modbus/server/session/ModbusSession.cpp" 130 TMODBUS LD "Session-%u, RX PDU %s" [SDump] 2) [AU 7; AS (dump [0; 1; 0; 0; 0; 6; 9; 3; 0; 0; 0; 1])] /\
  lm (fun _ => LD) (mkSite "modbus/server/session/ModbusSession.cpp" 130 TMODBUS LD "Session-%u, RX PDU %s" [SDump] 2) [AU 7; AS (dump [0; 1; 0; 0; 0; 6; 9; 3; 0; 0; 0; 1])] =
    LMsg "Session-7, RX PDU :00:01:00:00:00:06:09:03:00:00:00:01".
Proof.
  split; [|split; [|vm_compute; reflexivity]].
    unfold sites. apply in_concat. exists at_ModbusSession. split; [cbn [In]; repeat (first [left; reflexivity|right])|]. cbn [In at_ModbusSession]. repeat (first [left; reflexivity|right]).
  - split; [reflexivity|]. cbn [s_fmt s_src]. change (typed (pieces "Session-%u, RX PDU %s") [SDump] [AU 7; AS (dump [0; 1; 0; 0; 0; 6; 9; 3; 0; 0; 0; 1])]) with
      ((0 <= 7 < 4294967296) /\ (exists l, dumped l /\ dump [0; 1; 0; 0; 0; 6; 9; 3; 0; 0; 0; 1] = dump l) /\ True).
    split; [lia|]. split; [|exact Logic.I]. eexists. split; [|reflexivity]. split; [repeat constructor; unfold is_byte; lia|]. right. right.
    exists (repeat 0 512), 0, [0; 1; 0; 0; 0; 6; 9; 3; 0; 0; 0; 1]. split; [lia|]. vm_compute. reflexivity.
Qed.

(** * C144 *)

(** The output of a history of log statements is one line for each statement shown, in their order, each with the time, level, task, source
    file, line number and message of its statement. *)
Theorem C144_lines lv h : Forall sound h -> exists o ls, log_run lv h = Some o /\ lines o = Some ls /\ Forall2 is_entry (filter (printed lv) h) ls.
Proof. apply log_lines. Qed.
(** Numbers are printed as they are, and the file is named without its directories. *)
Theorem C144_numbers n : 0 <= n < 18446744073709551616 -> value 0 (dec n) = n.
Proof. intros H. apply dec_spec. lia. Qed.
(** The time is printed as day, month, year, hour, minute, second, each but the year with two digits, and three digits of milliseconds; levels and
    tasks have these names. *)
Theorem C144_fields t : time_ok t -> 0 <= t_year t ->
  (exists d mo y h mi s, stamp t = d +++ "-" +++ mo +++ "-" +++ y +++ " " +++ h +++ ":" +++ mi +++ ":" +++ s /\ map (value 0) [d; mo; y; h; mi; s] =
     [t_day t; t_mon t; t_year t; t_hour t; t_min t; t_sec t] /\ map String.length [d; mo; h; mi; s] = [2; 2; 2; 2; 2]%nat) /\
  value 0 (dec3 (t_ms t)) = t_ms t /\ String.length (dec3 (t_ms t)) = 3%nat /\
  map level_name [LD; LI; LW; LE] = ["DBG"; "INF"; "WRN"; "ERR"]%string /\
  map task_name [TGEN; TCTRL; TMODBUS; TUA; TUATL; TUASC; TUASRV] = ["GEN"; "CTRL"; "MODBUS"; "UA"; "UATL"; "UASC"; "UASRV"]%string.
Proof.
  unfold time_ok. intros H Hy.
  assert (V2 : forall n a, 0 <= n < 100 -> value a (dec2 n) = a * 100 + n).
  { intros n a Hn. unfold dec2. cbn [value]. destruct (digit_plain (n / 10) ltac:(lia)) as [_ ->]. destruct (digit_plain (n mod 10) ltac:(lia)) as [_ ->]. lia. }
  split; [|split; [|split; [reflexivity|split; reflexivity]]].
  - exists (dec2 (t_day t)), (dec2 (t_mon t)), (sdec (t_year t)), (dec2 (t_hour t)), (dec2 (t_min t)), (dec2 (t_sec t)).
    split; [reflexivity|]. split; [|reflexivity]. cbn [map]. rewrite !V2 by lia. unfold sdec. destruct (t_year t <? 0) eqn:E; [lia|].
    destruct (dec_spec (t_year t) ltac:(lia)) as (_ & -> & _). repeat f_equal; lia.
  - unfold dec3. cbn [value]. destruct (digit_plain (t_ms t / 100) ltac:(lia)) as [_ ->]. rewrite V2 by lia. lia.
Qed.
Print Assumptions C144_fields.
Example C144_fields_case : stamp (mkTime 5 11 2026 1 2 60 7) = "05-11-2026 01:02:60"%string /\ dec3 7 = "007"%string /\ time_ok (mkTime 5 11 2026 1 2 60 7).
Proof. split; [vm_compute; reflexivity|]. split; [vm_compute; reflexivity|]. unfold time_ok. cbn. lia. Qed.
Theorem C144_file f : slashes (base_name f) = false /\ (base_name f = f \/ exists d, f = d +++ String "/" (base_name f)).
Proof.
  unfold base_name. destruct (after_slash f) as [x|] eqn:E; [destruct (after_some f x E) as [S [d D]]; split; [exact S|right; eauto]|]. split; [now apply after_none|now left].
Qed.

Definition noon : ltime := mkTime 15 11 2026 12 0 0 5.
Definition closed_site : site := mkSite "common/reactor/Link.cpp" 80 TGEN LI "fd is closed" [] 0.
Definition del_site : site := mkSite "common/reactor/Link.cpp" 86 TGEN LE "fd del errno: %d" [] 1.
Example C144_case : Forall sound [(noon, closed_site, []); (noon, del_site, [AD (-9)])] /\
  log_run levels0 [(noon, closed_site, []); (noon, del_site, [AD (-9)])] =
    Some ("15-11-2026 12:00:00.005 INF [GEN] Link.cpp 80: fd is closed" +++ String newline ("15-11-2026 12:00:00.005 ERR [GEN] Link.cpp 86: fd del errno: -9" +++ String newline "")).
Proof.
  split; [|vm_compute; reflexivity].
  assert (T : time_ok noon) by (unfold time_ok, noon; cbn; lia).
  assert (I : forall s, In s at_Link -> In s sites) by (intros s Hs; unfold sites; apply in_concat; exists at_Link; split; [cbn [In]; repeat (first [left; reflexivity|right])|exact Hs]).
  constructor; [|constructor; [|constructor]].
  - split; [exact T|]. split; [|split; reflexivity]. apply I. unfold at_Link, closed_site. cbn [In]. repeat (first [left; reflexivity|right]).
  - split; [exact T|]. split; [apply I; unfold at_Link, del_site; cbn [In]; repeat (first [left; reflexivity|right])|]. split; [reflexivity|].
    change ((-2147483648 <= -9 < 2147483648) /\ True). split; [lia|exact Logic.I].
Qed.

(** * C145 *)

(** Setting the level of a task decides about the statements of that task only: those of at least that level are printed. *)
Definition at_least (l x : llevel) : Prop :=
  match l with LD => True | LI => x <> LD | LW => x <> LD /\ x <> LI | LE => x = LE \/ x = NA | NA => x = NA end.
Lemma at_least_rank l x : at_least l x <-> rank l <= rank x.
Proof. destruct l, x; cbn; intuition (try discriminate; try lia). Qed.
Theorem C145_set lv t l s a : In s sites -> executed s a ->
  ((exists m, lm (set_level lv t l) s a = LMsg m) <->
   (s_task s = t /\ at_least l (s_level s)) \/ (s_task s <> t /\ exists m, lm lv s a = LMsg m)).
Proof.
  intros Hs X. destruct (lm_spec (set_level lv t l) s a Hs X) as (m & _ & ->). destruct (lm_spec lv s a Hs X) as (m' & _ & ->).
  assert (P : forall (b : bool) (x : string), (exists y, (if b then LMsg x else LSkip) = LMsg y) <-> b = true).
  { intros [|] x; split; [reflexivity|intros _; now exists x|intros [y Y]; discriminate Y|discriminate]. }
  rewrite at_least_rank, !P. assert (E : task_eqb (s_task s) t = true <-> s_task s = t) by (destruct (s_task s), t; split; intros H; try discriminate H; reflexivity).
  unfold shown, set_level. destruct (task_eqb (s_task s) t).
  - assert (Y : s_task s = t) by now apply E. rewrite Z.leb_le. tauto.
  - assert (Y : s_task s <> t) by (intros Y; apply E in Y; discriminate). tauto.
Qed.
(** As delivered, exactly the statements of the Modbus and controller parts print nothing. *)
Theorem C145_shipped s a : In s sites -> executed s a -> (lm levels0 s a = LSkip <-> s_task s = TMODBUS \/ s_task s = TCTRL).
Proof.
  intros Hs X. assert (A : forallb (fun s => match s_level s with NA => false | _ => true end) sites = true) by (vm_compute; reflexivity). rewrite forallb_forall in A. specialize (A s Hs).
  destruct (lm_spec levels0 s a Hs X) as (m & _ & ->).
  unfold shown, levels0, set_level. destruct (s_task s), (s_level s); try discriminate A; cbn; intuition discriminate.
Qed.
Definition encode_site : site := mkSite "modbus/client/ModbusClient.cpp" 60 TMODBUS LE "Client-%u, encode error" [] 1.
Example C145_case : In encode_site sites /\ executed encode_site [AU 3] /\
  lm levels0 encode_site [AU 3] = LSkip /\ lm (set_level levels0 TMODBUS LE) encode_site [AU 3] = LMsg "Client-3, encode error".
Proof.
  split; [|split; [|split; vm_compute; reflexivity]].
  - unfold sites. apply in_concat. exists at_ModbusClient. split; [cbn [In]; repeat (first [left; reflexivity|right])|].
    unfold encode_site, at_ModbusClient. cbn [In]. repeat (first [left; reflexivity|right]).
  - split; [reflexivity|]. change ((0 <= 3 < 4294967296) /\ True). split; [lia|exact Logic.I].
Qed.

Print Assumptions C143_fits.
Print Assumptions C143_dumps.
Print Assumptions C143_room.
Print Assumptions C144_lines.
Print Assumptions C144_numbers.
Print Assumptions C144_file.
Print Assumptions C145_set.
Print Assumptions C145_shipped.
