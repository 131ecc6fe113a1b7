(** Theorems about the service layer: C48 (its part), C49-C52, C81-C88. *)
From Verif Require Import Base QueueModel PoolModel EntProofs ModbusCodecModel ModbusCodecSpec ModbusCodecProofs ModbusClientModel ModbusClientProofs
  UaCodecModel UaCodecSpec UaCodecProofs UaTcpModel UaTcpSpec UaTcpProofs UaTcpRuns UaTcpFacts UaChanModel UaChanSpec UaChanProofs UaChanRuns UaChanFacts
  UaServiceModel UaServiceSpec UaServiceProofs UaServiceRuns UaServiceFacts.
Local Open Scope Z_scope.

(** Requests for the examples. *)
Definition jzero : list Z := repeat 0 (Z.to_nat 4096).
Definition hdr_of (tok handle : Z) : reqhdr := mkRq (mkNid 0 (IdNum tok)) 0 handle 0 [] 0 extobj0.
Definition q_end (handle : Z) : request := QEnd (mkEq (hdr_of 0 handle) [] [] []).
Definition q_cre (handle tmo : Z) : request := QCre (mkCsq (hdr_of 0 handle) appdesc0 [] [] [] [] [] tmo 0).
Definition q_act (tok handle : Z) : request := QAct (mkAsq (hdr_of tok handle) sigdata0 [] [] extobj0 sigdata0).
Definition q_clo (tok handle : Z) : request := QClo (mkClq (hdr_of tok handle) false).
Definition q_rd (tok handle : Z) (l : list rvid) : request := QRead (mkRd (hdr_of tok handle) 0 0 l).
Definition msg_of (conn chan req sess : Z) (q : request) : emsg := mkEm (mkEh conn chan req sess) (Z.of_nat (length (q_octets q))) (q_octets q).
Definition ind (conn chan req sess now : Z) (q : request) : sev := SvInd (msg_of conn chan req sess q) jzero now.
Notation ans h l := (SSend (reply h l)).
Notation H4 := mkEh.
(** Connection 7, channel 1: a session created and activated. *)
Definition es2 : list sev := [SvInit; ind 7 1 5 invalidSuid 0 (q_cre 11 3); ind 7 1 6 invalidSuid 0 (q_act 1 12)].
Definition os2 : list (list sout) :=
  [[SInitRsp]; [ans (H4 7 1 5 invalidSuid) (create_rsp 1 0 11 3 0)]; [SAssoc (H4 7 1 6 1); ans (H4 7 1 6 1) (activate_rsp 0 12)]].

(** * C48, the services' part *)

(** Every response belongs to one request: same connection, channel, request id and handle, the response type of its type; it is
    the only one; it names the session the request came with, except that the response to an activation
    names the session the request's token names. *)
Theorem C48_service c tr e c' os r : sreach c tr -> sev_ok e -> svc_step c e = Some (c', os) -> In (SSend r) os ->
  exists m j now q, e = SvInd m j now /\ parse m j = PReq q /\
    e_conn (em_hdr r) = e_conn (em_hdr m) /\ e_chan (em_hdr r) = e_chan (em_hdr m) /\ e_req (em_hdr r) = e_req (em_hdr m) /\
    rhandle r = q_handle q /\ rtype r = q_type q + 3 /\ filter is_send os = [SSend r] /\
    em_len r = Z.of_nat (length (em_data r)) /\
    match q with QAct _ => named q = Some (e_sess (em_hdr r)) | _ => e_sess (em_hdr r) = e_sess (em_hdr m) end.
Proof.
  intros HR He Hs Hi. destruct (only_ind _ _ _ _ _ _ HR He Hs Hi) as (m & j & now & q & -> & _ & Hp & Sv & Hh).
  exists m, j, now, q. split; [auto|]. split; [auto|]. destruct Hh as [Hh _].
  destruct Sv as [r0|r0|r0 sid|r0 sid Hn|r0|r0 sid|r0|r0|r0]; try (destruct Hi; fail).
  - destruct Hi as [Hi|[]]. injection Hi as <-. repeat split. apply head_at; auto.
  - destruct Hi as [Hi|[]]. injection Hi as <-. repeat split. apply head_at; auto.
  - destruct Hi as [Hi|[Hi|[]]]; [discriminate|]. injection Hi as <-. do 3 (split; [reflexivity|]). split; [apply head_at; auto|].
    do 3 (split; [reflexivity|]). exact Hn.
  - destruct Hi as [Hi|[Hi|[]]]; [|discriminate]. injection Hi as <-. repeat split. unfold rhandle, reply, close_session_rsp. cbn [em_data].
    rewrite <- (app_nil_r (rsp_head now _)). apply head_at; auto.
  - destruct Hi as [Hi|[]]. injection Hi as <-. repeat split. apply head_at; auto.
Qed.
Example C48_service_case : exists c c', sreach c (combine es2 os2) /\
  svc_step c (ind 7 1 8 1 100 (q_rd 0 13 [])) = Some (c', [ans (H4 7 1 8 1) (read_rsp 100 13)]).
Proof.
  destruct (souts_last es2 os2 (ind 7 1 8 1 100 (q_rd 0 13 [])) [ans (H4 7 1 8 1) (read_rsp 100 13)]) as (c & c' & R & _ & S & _);
    [vm_compute; reflexivity|reflexivity|vm_compute; reflexivity|eauto].
Qed.

(** * C49 *)

(** A read is answered only when the session the channel attached to it is live and was last activated over the channel the
    read came over. *)
Theorem C49_read_guarded c tr m j now q c' os r : sreach c tr -> sev_ok (SvInd m j now) -> parse m j = PReq (QRead q) ->
  svc_step c (SvInd m j now) = Some (c', os) -> In (SSend r) os ->
  live (e_sess (em_hdr m)) tr /\ bound (e_sess (em_hdr m)) tr = Some (e_chan (em_hdr m)).
Proof.
  intros HR He Hq Hs Hi. destruct (only_ind _ _ _ _ _ _ HR He Hs Hi) as (m' & j' & now' & q' & E & _ & Hp & Sv & _).
  injection E as <- <- <-. assert (q' = QRead q) as -> by congruence. inversion Sv; subst; [auto|destruct Hi].
Qed.
(** And then it is answered. *)
Theorem C49_read_answered c tr m j now q : sreach c tr -> sev_ok (SvInd m j now) -> parse m j = PReq (QRead q) -> running tr = true ->
  live (e_sess (em_hdr m)) tr -> bound (e_sess (em_hdr m)) tr = Some (e_chan (em_hdr m)) ->
  exists c', svc_step c (SvInd m j now) = Some (c', [ans (em_hdr m) (read_rsp now (rq_handle (rr_hdr q)))]).
Proof.
  intros HR He Hq Hr Hl Hb. destruct (request_step _ _ _ _ _ _ HR He Hr Hq) as [_ X].
  destruct X as (c' & os & Hs & Sv).
  - intros [_ N]. apply N. pose proof (proj1 (running_iff _ _ HR) Hr) as [v ->]. eapply live_range; eauto using sreach_inv.
  - exists c'. rewrite Hs. inversion Sv; subst; [auto|tauto].
Qed.
(** [bound] in plain words: some earlier activation over that channel was answered, and after it the session was neither closed
    nor activated over another channel, nor the component restarted. *)
Definition rebinds (sid : Z) (x : sev * list sout) : Prop :=
  match x with
  | (SvInd m j _, os) =>
      match parse m j, os with
      | PReq (QCre _), [SSend r] => rsession r = sid
      | PReq (QAct _), [SAssoc _; SSend r] => e_sess (em_hdr r) = sid
      | PReq (QClo c), SSend _ :: _ => n_val (rq_token (cl_hdr c)) = IdNum sid
      | _, _ => False
      end
  | (SvConfig, _) => False
  | _ => True
  end.
Theorem C49_bound_means sid tr ch : bound sid tr = Some ch ->
  exists tr1 m j now q a r tr2, tr = tr1 ++ (SvInd m j now, [SAssoc a; SSend r]) :: tr2 /\ parse m j = PReq (QAct q) /\
    e_sess (em_hdr r) = sid /\ e_chan (em_hdr r) = ch /\ Forall (fun x => ~ rebinds sid x) tr2.
Proof.
  unfold bound. induction tr as [|x tr IH] using rev_ind; [discriminate|]. rewrite sview_snoc. intros H.
  assert (K : w_chan (sview_of sid tr) = Some ch -> ~ rebinds sid x -> exists tr1 m j now q a r tr2, tr ++ [x] = tr1 ++ (SvInd m j now, [SAssoc a; SSend r]) :: tr2 /\
     parse m j = PReq (QAct q) /\ e_sess (em_hdr r) = sid /\ e_chan (em_hdr r) = ch /\ Forall (fun x => ~ rebinds sid x) tr2).
  { intros Hw Hx. destruct (IH Hw) as (tr1 & m & j & now & q & a & r & tr2 & E & A & B & C & F).
    exists tr1, m, j, now, q, a, r, (tr2 ++ [x]). rewrite E, <- app_assoc. split; [reflexivity|]. repeat (split; [assumption|]).
    apply Forall_app. auto. }
  clear IH. destruct x as [[| |m j now|] os]; cbn [sview_next w_chan sview0] in H; try discriminate; [apply K; auto|].
  assert (K0 : ~ rebinds sid (SvInd m j now, os) -> w_chan (sview_of sid tr) = Some ch -> _) by (intros ? ?; apply K; eassumption).
  cbn [rebinds] in K0. destruct (parse m j) as [[r|r|r|r|r]| | |] eqn:Ep; try (apply K0; [tauto|exact H]).
  - destruct os as [|[x|x|x| | |] [|]]; try (apply K0; [tauto|exact H]). destruct (Z.eqb_spec (rsession x) sid); [discriminate|]. apply K0; auto.
  - destruct os as [|[x|x|x| | |] [|[y|y|y| | |] [|]]]; try (apply K0; [tauto|exact H]).
    destruct (Z.eqb_spec (e_sess (em_hdr y)) sid); [|apply K0; auto]. cbn [w_chan] in H. injection H as H.
    exists tr, m, j, now, r, x, y, []. auto 10.
  - destruct os as [|[x|x|x| | |] os]; try (apply K0; [tauto|exact H]).
    destruct (n_val (rq_token (cl_hdr r))) as [t|t|t|t]; [|apply K0; [discriminate|exact H]..].
    destruct (Z.eqb_spec t sid); [discriminate|]. apply K0; [|exact H]. intros X. injection X as X. auto.
Qed.
(** Over channel 2 the same read is not answered; over channel 1 it is. *)
Example C49_case : exists c c1 c2, sreach c (combine es2 os2) /\ live 1 (combine es2 os2) /\ bound 1 (combine es2 os2) = Some 1 /\
  svc_step c (ind 8 2 8 1 100 (q_rd 0 13 [])) = Some (c1, []) /\
  svc_step c (ind 7 1 8 1 100 (q_rd 0 13 [])) = Some (c2, [ans (H4 7 1 8 1) (read_rsp 100 13)]).
Proof.
  destruct (souts es2 os2) as [c R]; [vm_compute; reflexivity|vm_compute; reflexivity|].
  assert (L : live 1 (combine es2 os2)) by (vm_compute; reflexivity).
  assert (B : bound 1 (combine es2 os2) = Some 1) by (vm_compute; reflexivity).
  destruct (C49_read_answered c _ (msg_of 7 1 8 1 (q_rd 0 13 [])) jzero 100 (mkRd (hdr_of 0 13) 0 0 []) R) as [c2 X];
    [apply sev_okb_ok; vm_compute; reflexivity|vm_compute; reflexivity|reflexivity|exact L|exact B|].
  destruct (request_step c _ (msg_of 8 2 8 1 (q_rd 0 13 [])) jzero 100 (q_rd 0 13 []) R) as [_ Y];
    [apply sev_okb_ok; vm_compute; reflexivity|reflexivity|vm_compute; reflexivity|].
  destruct Y as (c1 & os & Hs & Sv); [intros [_ N]; apply N; cbn; lia|]. exists c, c1, c2. split; [exact R|]. split; [exact L|]. split; [exact B|].
  split; [|exact X]. unfold ind. rewrite Hs. inversion Sv as [| | | | | | |r HL HB|]; [|reflexivity]. 
  cbn [msg_of em_hdr e_sess e_chan] in HB. rewrite B in HB. discriminate.
Qed.

(** * C50 *)

(** Create: the id is one of 1..32 and was not in use, and a request is refused only when all 32 are in use. *)
Theorem C50_create c tr m j now q : sreach c tr -> sev_ok (SvInd m j now) -> running tr = true -> parse m j = PReq (QCre q) ->
  exists c' os, svc_step c (SvInd m j now) = Some (c', os) /\
    ((os = [] /\ nlive tr = 32%nat) \/
     (exists r, os = [SSend r] /\ 1 <= rsession r <= 32 /\ ~ live (rsession r) tr /\ live (rsession r) (tr ++ [(SvInd m j now, os)]) /\
        em_data r = create_rsp (rsession r) now (q_handle (QCre q)) (cs_tmo q) (cs_max q) /\ (nlive tr < 32)%nat)).
Proof.
  intros HR He Hr Hq. destruct (request_step _ _ _ _ _ _ HR He Hr Hq) as [_ X]. destruct X as (c' & os & Hs & Sv); [intros []|].
  exists c', os. split; [auto|]. inversion Sv as [|r Hf|r sid Hf Hi Hl| | | | | |]; subst; [left; auto|right].
  eexists. split; [reflexivity|]. rewrite create_sid. split; [auto|]. split; [auto|]. split; [|split; [reflexivity|auto]].
  unfold live, liveb. rewrite sview_snoc. cbn [sview_next]. rewrite Hq, create_sid, Z.eqb_refl. cbn [w_new w_end].
  assert (E : w_new (sview_of sid tr) = w_end (sview_of sid tr)); [|rewrite E; apply Nat.eqb_refl].
  pose proof (proj1 (running_iff _ _ HR) Hr) as [v ->]. pose proof (sreach_inv _ _ HR) as HI.
  destruct (sess_in _ _ _ HI Hi) as (s & _ & SO' & _). pose proof (SO_live _ _ _ SO') as HL. unfold live in Hl.
  unfold SO, sact in *. destruct (ss_st s); [apply SO'|congruence|congruence].
Qed.
(** Each session created is closed at most once: since the component was started, an id was handed back as often as
    sessions with that id were closed, and that is as often as they were created, or once less while it is live. *)
Definition freed_next (sid : Z) (n : nat) (x : sev * list sout) : nat :=
  match fst x with
  | SvInit | SvRelease => 0
  | _ => n + length (filter (fun o => match o with SFree s => s =? sid | _ => false end) (snd x))
  end.
Definition freed (sid : Z) (tr : strace) : nat := fold_left (freed_next sid) tr 0%nat.
Theorem C50_account c tr sid : sreach c tr ->
  freed sid tr = w_end (sview_of sid tr) /\
  (w_new (sview_of sid tr) = freed sid tr \/ (w_new (sview_of sid tr) = S (freed sid tr) /\ 1 <= sid <= 32)).
Proof.
  intros HR.
  assert (A : freed sid tr = w_end (sview_of sid tr)).
  { induction HR as [|c tr e c' os R IH He Hs]; [reflexivity|]. unfold freed in *. rewrite fold_left_app, sview_snoc. cbn [fold_left]. rewrite IH.
    destruct e as [| |m j now|]; cbn [freed_next fst snd].
    - reflexivity.
    - apply step_config in Hs as [_ ->]. cbn. lia.
    - destruct (ind_served _ _ _ _ _ _ _ R He Hs) as [[_ ->]|[Hr [(q & Eq & Sv & _)|[[Eq ->]|[Eq ->]]]]].
      + rewrite view_nil. cbn. lia.
      + cbn [sview_next]. rewrite Eq. destruct Sv; cbn [filter length]; try (rewrite Nat.add_0_r).
        * reflexivity. * reflexivity. * rewrite create_sid. destruct (sid0 =? sid); reflexivity.
        * destruct (e_sess _ =? sid); reflexivity. * reflexivity.
        * unfold named in *. cbn [q_hdr] in *. destruct (n_val (rq_token (cl_hdr r))) as [t|t|t|t]; try discriminate.
          match goal with H : Some _ = Some _ |- _ => injection H as -> end. destruct (sid0 =? sid); cbn [length w_end]; lia.
        * reflexivity. * reflexivity. * reflexivity.
      + cbn [sview_next]. rewrite Eq. cbn. lia.
      + cbn [sview_next]. rewrite Eq. cbn. lia.
    - reflexivity. }
  split; [auto|]. rewrite A. apply sreach_inv in HR. destruct c as [v|]; cbn [SInv] in HR.
  - destruct (Z_le_dec 1 sid), (Z_le_dec sid 32); try (left; destruct HR as (_ & _ & _ & X); rewrite X by lia; reflexivity).
    destruct (sess_in v tr sid) as (s & _ & SO' & _); [exact HR|lia|]. unfold SO in SO'. destruct (ss_st s).
    + left. apply SO'. + right. split; [apply SO'|lia]. + right. split; [apply SO'|lia].
  - destruct HR as [_ ->]. left. reflexivity.
Qed.
(** Closing: of a live session, answers, hands the id back, and the session is no longer live. *)
Theorem C50_close c tr m j now q sid : sreach c tr -> sev_ok (SvInd m j now) -> running tr = true -> parse m j = PReq (QClo q) ->
  named (QClo q) = Some sid -> live sid tr ->
  let os := [ans (em_hdr m) (close_session_rsp now (rq_handle (cl_hdr q))); SFree sid] in
  exists c', svc_step c (SvInd m j now) = Some (c', os) /\ ~ live sid (tr ++ [(SvInd m j now, os)]).
Proof.
  intros HR He Hr Hq Hn Hl os. pose proof (proj1 (running_iff _ _ HR) Hr) as [v ->]. pose proof (sreach_inv _ _ HR) as HI.
  pose proof (live_range _ _ _ HI Hl) as Hu. destruct (request_step _ _ _ _ _ _ HR He Hr Hq) as [_ X].
  destruct X as (c' & o & Hs & Sv); [intros (s & E & N); rewrite Hn in E; injection E as <-; auto|]. exists c'.
  assert (o = os).
  { inversion Sv as [| | | | |r s E|r E| |]; subst.
    - rewrite Hn in E. injection E as <-. reflexivity.
    - destruct (E sid Hn) as [_ E2]. tauto. }
  subst o. split; [auto|]. unfold live, liveb in *. rewrite sview_snoc. cbn [sview_next]. rewrite Hq. unfold os.
  unfold named in Hn. cbn [q_hdr] in Hn. destruct (n_val (rq_token (cl_hdr q))); try discriminate. injection Hn as ->. rewrite Z.eqb_refl. cbn [w_new w_end].
  apply Nat.eqb_eq in Hl. rewrite Hl. intros X. apply Nat.eqb_eq in X. lia.
Qed.
Definition es_c50 : list sev := es2 ++ [ind 7 1 7 1 0 (q_cre 13 0); ind 7 1 8 1 0 (q_clo 1 14)].
Definition os_c50 : list (list sout) :=
  os2 ++ [[ans (H4 7 1 7 1) (create_rsp 2 0 13 0 0)]; [ans (H4 7 1 8 1) (close_session_rsp 0 14); SFree 1]].
Example C50_case : exists c, sreach c (combine es_c50 os_c50) /\ ~ live 1 (combine es_c50 os_c50) /\ live 2 (combine es_c50 os_c50) /\ freed 1 (combine es_c50 os_c50) = 1%nat.
Proof.
  destruct (souts es_c50 os_c50) as [c R]; [vm_compute; reflexivity|vm_compute; reflexivity|]. exists c. split; [exact R|].
  split; [unfold live; vm_compute; discriminate|]. split; vm_compute; reflexivity.
Qed.

(** * C51 *)

(** A session created over channel 1 can be activated over channel 2, and closed over channel 3. *)
Definition c51_es : list sev := [SvInit; ind 7 1 5 invalidSuid 0 (q_cre 11 3); ind 8 2 6 invalidSuid 0 (q_act 1 12)].
Definition c51_os : list (list sout) :=
  [[SInitRsp]; [ans (H4 7 1 5 invalidSuid) (create_rsp 1 0 11 3 0)]; [SAssoc (H4 8 2 6 1); ans (H4 8 2 6 1) (activate_rsp 0 12)]].
Theorem C51_refuted :
  ~ (forall c tr1 mc jc nc qc rc tr2 m j now q c' os r, 
       sreach c (tr1 ++ (SvInd mc jc nc, [SSend rc]) :: tr2) -> parse mc jc = PReq (QCre qc) ->
       sev_ok (SvInd m j now) -> parse m j = PReq (QAct q) ->
       svc_step c (SvInd m j now) = Some (c', os) -> In (SSend r) os -> e_sess (em_hdr r) = rsession rc -> e_chan (em_hdr m) = e_chan (em_hdr mc)) /\
  ~ (forall c tr m j now q sid c' os r, sreach c tr -> sev_ok (SvInd m j now) -> parse m j = PReq (QClo q) -> named (QClo q) = Some sid ->
       svc_step c (SvInd m j now) = Some (c', os) -> In (SSend r) os -> bound sid tr = Some (e_chan (em_hdr m))).
Proof.
  split; intros H.
  - destruct (souts_last [SvInit; ind 7 1 5 invalidSuid 0 (q_cre 11 3)] [[SInitRsp]; [ans (H4 7 1 5 invalidSuid) (create_rsp 1 0 11 3 0)]]
      (ind 8 2 6 invalidSuid 0 (q_act 1 12)) [SAssoc (H4 8 2 6 1); ans (H4 8 2 6 1) (activate_rsp 0 12)]) as (c & c' & R & He & Hs & _);
      [vm_compute; reflexivity|reflexivity|vm_compute; reflexivity|].
    cbn [combine] in R.
    specialize (H c [(SvInit, [SInitRsp])] (msg_of 7 1 5 invalidSuid (q_cre 11 3)) jzero 0 (mkCsq (hdr_of 0 11) appdesc0 [] [] [] [] [] 3 0)
      (reply (H4 7 1 5 invalidSuid) (create_rsp 1 0 11 3 0)) [] (msg_of 8 2 6 invalidSuid (q_act 1 12)) jzero 0
      (mkAsq (hdr_of 1 12) sigdata0 [] [] extobj0 sigdata0) c' [SAssoc (H4 8 2 6 1); ans (H4 8 2 6 1) (activate_rsp 0 12)] (reply (H4 8 2 6 1) (activate_rsp 0 12)) R).
    cut (2 = 1); [discriminate|]. apply H; [vm_compute; reflexivity|exact He|vm_compute; reflexivity|exact Hs|right; left; reflexivity|].
    rewrite create_sid. reflexivity.
  - destruct (souts_last c51_es c51_os (ind 9 3 9 invalidSuid 0 (q_clo 1 14)) [ans (H4 9 3 9 invalidSuid) (close_session_rsp 0 14); SFree 1])
      as (c & c' & R & He & Hs & _); [vm_compute; reflexivity|reflexivity|vm_compute; reflexivity|].
    specialize (H c _ (msg_of 9 3 9 invalidSuid (q_clo 1 14)) jzero 0 (mkClq (hdr_of 1 14) false) 1 c' [ans (H4 9 3 9 invalidSuid) (close_session_rsp 0 14); SFree 1] (reply (H4 9 3 9 invalidSuid) (close_session_rsp 0 14)) R He).
    assert (X : bound 1 (combine c51_es c51_os) = Some 3) by (apply H; [vm_compute; reflexivity|reflexivity|exact Hs|left; reflexivity]).
    vm_compute in X. discriminate.
Qed.
(** What is checked: that the session named by the token is live.  Activation moves it to the channel of the request. *)
Theorem C51_activate_partial c tr m j now q sid : sreach c tr -> sev_ok (SvInd m j now) -> running tr = true -> parse m j = PReq (QAct q) ->
  named (QAct q) = Some sid -> 1 <= sid <= 32 ->
  exists c' os, svc_step c (SvInd m j now) = Some (c', os) /\
    (live sid tr -> os = [SAssoc (to_session (em_hdr m) sid); ans (to_session (em_hdr m) sid) (activate_rsp now (rq_handle (as_hdr q)))] /\
       live sid (tr ++ [(SvInd m j now, os)]) /\ bound sid (tr ++ [(SvInd m j now, os)]) = Some (e_chan (em_hdr m))) /\
    (~ live sid tr -> os = []).
Proof.
  intros HR He Hr Hq Hn Hu. destruct (request_step _ _ _ _ _ _ HR He Hr Hq) as [_ X].
  destruct X as (c' & os & Hs & Sv); [intros (s & E & N); rewrite Hn in E; injection E as <-; auto|]. exists c', os. split; [auto|].
  inversion Sv as [| | |r s E HL|r E| | | |]; subst.
  - rewrite Hn in E. injection E as <-. split; [|tauto]. intros _. split; [reflexivity|]. unfold live, liveb, bound. rewrite sview_snoc. cbn [sview_next].
    rewrite Hq. cbn [reply em_hdr to_session e_sess e_chan]. rewrite Z.eqb_refl. split; [exact HL|reflexivity].
  - destruct (E sid Hn) as [_ E2]. split; [tauto|auto].
Qed.
Theorem C51_close_partial c tr m j now q sid : sreach c tr -> sev_ok (SvInd m j now) -> running tr = true -> parse m j = PReq (QClo q) ->
  named (QClo q) = Some sid -> 1 <= sid <= 32 ->
  exists c' os, svc_step c (SvInd m j now) = Some (c', os) /\
    (live sid tr -> os = [ans (em_hdr m) (close_session_rsp now (rq_handle (cl_hdr q))); SFree sid]) /\ (~ live sid tr -> os = []).
Proof.
  intros HR He Hr Hq Hn Hu. destruct (request_step _ _ _ _ _ _ HR He Hr Hq) as [_ X].
  destruct X as (c' & os & Hs & Sv); [intros (s & E & N); rewrite Hn in E; injection E as <-; auto|]. exists c', os. split; [auto|].
  inversion Sv as [| | | | |r s E HL|r E| |]; subst.
  - rewrite Hn in E. injection E as <-. split; [reflexivity|tauto].
  - destruct (E sid Hn) as [_ E2]. split; [tauto|auto].
Qed.
Example C51_case : exists c, sreach c (combine c51_es c51_os) /\ bound 1 (combine c51_es c51_os) = Some 2.
Proof. destruct (souts c51_es c51_os) as [c R]; [vm_compute; reflexivity|vm_compute; reflexivity|]. exists c. split; [exact R|vm_compute; reflexivity]. Qed.

(** * C52 *)

(** A token naming session 33 (or 0) takes the service outside its table. *)
Theorem C52_refuted : exists c tr m j now q, sreach c tr /\ sev_ok (SvInd m j now) /\ q_wf q /\ em_data m = q_octets q /\
  parse m j = PReq q /\ svc_step c (SvInd m j now) = None.
Proof.
  destruct (souts_undef [SvInit] [[SInitRsp]] (ind 7 1 5 invalidSuid 0 (q_clo 33 9))) as (c & R & He & Hs);
    [vm_compute; reflexivity|vm_compute; reflexivity|].
  exists c, (combine [SvInit] [[SInitRsp]]), (msg_of 7 1 5 invalidSuid (q_clo 33 9)), jzero, 0, (q_clo 33 9).
  split; [exact R|]. split; [exact He|]. split; [|split; [reflexivity|split; [vm_compute; reflexivity|exact Hs]]].
  cbn [q_wf q_clo]. unfold wf_clsreq, wf_reqhdr, hdr_of, wf_nodeid, wf_str, wf_extobj, wf_nodeid. cbn. unfold is_u16, is_u32, is_i64. repeat split; try lia; constructor.
Qed.
(** Requests that name a session in 1..32, and those that name none, are always handled; the exact set of requests that are not. *)
Theorem C52_in_range_partial c tr m j now q : sreach c tr -> sev_ok (SvInd m j now) -> parse m j = PReq q ->
  (svc_step c (SvInd m j now) = None <-> running tr = true /\ stray (em_hdr m) q).
Proof.
  intros HR He Hq. destruct (running tr) eqn:Er.
  - destruct (request_step _ _ _ _ _ _ HR He Er Hq) as [A B]. split; [|intros [_ X]; auto]. intros X. split; [auto|].
    destruct q as [r|r|r|r|r]; cbn [stray] in *.
    + destruct B as (? & ? & B & _); [tauto|congruence].
    + destruct B as (? & ? & B & _); [tauto|congruence].
    + destruct (named (QAct r)) as [s|].
      * exists s. split; [auto|]. intros D. destruct B as (? & ? & B & _); [|congruence]. intros (s' & E & N). injection E as <-. auto.
      * destruct B as (? & ? & B & _); [|congruence]. intros (s' & E & N). discriminate.
    + destruct (named (QClo r)) as [s|].
      * exists s. split; [auto|]. intros D. destruct B as (? & ? & B & _); [|congruence]. intros (s' & E & N). injection E as <-. auto.
      * destruct B as (? & ? & B & _); [|congruence]. intros (s' & E & N). discriminate.
    + split; [intros D|intros D]; (destruct B as (? & ? & B & _); [|congruence]); tauto.
  - split; [|intros [X _]; discriminate]. destruct c as [v|].
    + pose proof (proj2 (running_iff _ _ HR) (ex_intro _ v eq_refl)). congruence.
    + rewrite step_none. discriminate.
Qed.
Example C52_case : ~ stray (H4 7 1 5 invalidSuid) (q_clo 32 9) /\ ~ stray (H4 7 1 5 invalidSuid) (q_rd 99 9 []) /\ stray (H4 7 1 5 invalidSuid) (q_clo 0 9).
Proof. repeat split; [intros (s & E & N); injection E as <-; lia|intros [N _]; now apply N|exists 0; split; [reflexivity|lia]]. Qed.

(** * C81 *)

(** Discovery needs no session: a running component answers every endpoints request with its one endpoint. *)
Theorem C81_endpoints c tr m j now q : sreach c tr -> sev_ok (SvInd m j now) -> running tr = true -> parse m j = PReq (QEnd q) ->
  svc_step c (SvInd m j now) = Some (c, [ans (em_hdr m) (endpoints_rsp now (rq_handle (eq_hdr q)))]).
Proof.
  intros HR He Hr Hq. pose proof (proj1 (running_iff _ _ HR) Hr) as [v ->]. rewrite step_ind. destruct He as (Hm & Hj & _).
  rewrite ind_eq, Hq by auto. cbn [handle_q]. rewrite send_ep. reflexivity.
Qed.
Example C81_case : exists c, sreach c (combine [SvInit] [[SInitRsp]]) /\
  svc_step c (ind 7 1 5 invalidSuid 44 (q_end 9)) = Some (c, [ans (H4 7 1 5 invalidSuid) (endpoints_rsp 44 9)]).
Proof.
  destruct (souts [SvInit] [[SInitRsp]]) as [c R]; [reflexivity|vm_compute; reflexivity|]. exists c. split; [exact R|].
  apply (C81_endpoints c _ (msg_of 7 1 5 invalidSuid (q_end 9)) jzero 44 (mkEq (hdr_of 0 9) [] [] []) R);
    [apply sev_okb_ok; vm_compute; reflexivity|reflexivity|vm_compute; reflexivity].
Qed.

(** * C82 *)

(** The component's lifecycle: one response to each initialisation and each release, none to a configuration; nothing at all
    happens on messages outside the time between the two; both forget every session. *)
Theorem C82_lifecycle c tr e c' os : sreach c tr -> sev_ok e -> svc_step c e = Some (c', os) ->
  match e with
  | SvInit => os = [SInitRsp] /\ forall sid, ~ live sid (tr ++ [(e, os)])
  | SvRelease => os = [SReleaseRsp] /\ forall sid, ~ live sid (tr ++ [(e, os)])
  | SvConfig => os = [] /\ c' = c
  | SvInd _ _ _ => ~ In SInitRsp os /\ ~ In SReleaseRsp os /\ (running tr = false -> os = [] /\ c' = c)
  end.
Proof.
  intros HR He Hs. destruct e as [| |m j now|].
  - apply step_init in Hs as (v & _ & _ & ->). split; [auto|]. intros sid. unfold live, liveb. rewrite sview_snoc. cbn. discriminate.
  - apply step_config in Hs as (-> & ->). auto.
  - split; [|split].
    + destruct (ind_served _ _ _ _ _ _ _ HR He Hs) as [[_ ->]|[_ [(q & _ & Sv & _)|[[_ ->]|[_ ->]]]]]; try (cbn; intuition discriminate).
      destruct Sv; cbn; intuition discriminate.
    + destruct (ind_served _ _ _ _ _ _ _ HR He Hs) as [[_ ->]|[_ [(q & _ & Sv & _)|[[_ ->]|[_ ->]]]]]; try (cbn; intuition discriminate).
      destruct Sv; cbn; intuition discriminate.
    + intros Hr. destruct c as [v|].
      * pose proof (proj2 (running_iff _ _ HR) (ex_intro _ v eq_refl)). congruence.
      * rewrite step_none in Hs. apply some2 in Hs as (<- & <-). auto.
  - apply step_release in Hs as (_ & ->). split; [auto|]. intros sid. unfold live, liveb. rewrite sview_snoc. cbn. discriminate.
Qed.
(** Both are always possible. *)
Theorem C82_always c : (exists v, svc_step c SvInit = Some (Some v, [SInitRsp])) /\ svc_step c SvRelease = Some (None, [SReleaseRsp]).
Proof. split; [|reflexivity]. destruct svc_new_ok as [v E]. exists v. unfold svc_step. now rewrite E. Qed.
Example C82_case : exists c c', sreach c (combine (es2 ++ [SvInit]) (os2 ++ [[SInitRsp]])) /\ live 1 (combine es2 os2) /\
  svc_step c (ind 7 1 8 1 100 (q_rd 0 13 [])) = Some (c', []).
Proof.
  destruct (souts_last (es2 ++ [SvInit]) (os2 ++ [[SInitRsp]]) (ind 7 1 8 1 100 (q_rd 0 13 [])) []) as (c & c' & R & _ & S & _);
    [vm_compute; reflexivity|reflexivity|vm_compute; reflexivity|]. exists c, c'. split; [exact R|]. split; [vm_compute; reflexivity|exact S].
Qed.

(** * C83 *)

(** A read does not show a token: any token, even of another session, will do. *)
Theorem C83_refuted :
  ~ (forall c tr m j now q c' os r, sreach c tr -> sev_ok (SvInd m j now) -> parse m j = PReq (QRead q) ->
       svc_step c (SvInd m j now) = Some (c', os) -> In (SSend r) os -> named (QRead q) = Some (e_sess (em_hdr r))).
Proof.
  intros H. destruct (souts_last es2 os2 (ind 7 1 8 1 100 (q_rd 2 13 [])) [ans (H4 7 1 8 1) (read_rsp 100 13)]) as (c & c' & R & He & S & _);
    [vm_compute; reflexivity|reflexivity|vm_compute; reflexivity|].
  cut (Some 2 = Some 1); [discriminate|].
  apply (H c _ (msg_of 7 1 8 1 (q_rd 2 13 [])) jzero 100 (mkRd (hdr_of 2 13) 0 0 []) c' [ans (H4 7 1 8 1) (read_rsp 100 13)] (reply (H4 7 1 8 1) (read_rsp 100 13)) R He);
    [vm_compute; reflexivity|exact S|left; reflexivity].
Qed.
(** Activating and closing do use it: an answer means that the token named a live session. *)
Theorem C83_token_partial c tr m j now q c' os r : sreach c tr -> sev_ok (SvInd m j now) -> parse m j = PReq q ->
  svc_step c (SvInd m j now) = Some (c', os) -> In (SSend r) os ->
  match q with QAct _ | QClo _ => exists sid, named q = Some sid /\ live sid tr | _ => True end.
Proof.
  intros HR He Hq Hs Hi. destruct (only_ind _ _ _ _ _ _ HR He Hs Hi) as (m' & j' & now' & q' & E & _ & Hp & Sv & _).
  injection E as <- <- <-. assert (q' = q) as -> by congruence. destruct Sv; auto; try (destruct Hi; fail); eauto.
Qed.
Example C83_case : exists c c', sreach c (combine es2 os2) /\ named (q_clo 1 14) = Some 1 /\ live 1 (combine es2 os2) /\
  svc_step c (ind 7 1 8 1 0 (q_clo 1 14)) = Some (c', [ans (H4 7 1 8 1) (close_session_rsp 0 14); SFree 1]).
Proof.
  destruct (souts_last es2 os2 (ind 7 1 8 1 0 (q_clo 1 14)) [ans (H4 7 1 8 1) (close_session_rsp 0 14); SFree 1]) as (c & c' & R & _ & S & _);
    [vm_compute; reflexivity|reflexivity|vm_compute; reflexivity|]. exists c, c'. split; [exact R|]. split; [reflexivity|]. split; [vm_compute; reflexivity|exact S].
Qed.

(** * C84 *)

(** A read is never given results, however many nodes it asks for. *)
Definition two_nodes : list rvid := [rvid0; rvid0].
Theorem C84_refuted :
  ~ (forall c tr m j now q c' os r, sreach c tr -> sev_ok (SvInd m j now) -> parse m j = PReq (QRead q) ->
       svc_step c (SvInd m j now) = Some (c', os) -> In (SSend r) os -> le_at 28 (em_data r) = Z.of_nat (length (rr_nodes q))).
Proof.
  intros H. destruct (souts_last es2 os2 (ind 7 1 8 1 100 (q_rd 0 13 two_nodes)) [ans (H4 7 1 8 1) (read_rsp 100 13)]) as (c & c' & R & He & S & _);
    [vm_compute; reflexivity|reflexivity|vm_compute; reflexivity|].
  cut (0 = 2); [discriminate|].
  apply (H c _ (msg_of 7 1 8 1 (q_rd 0 13 two_nodes)) jzero 100 (mkRd (hdr_of 0 13) 0 0 two_nodes) c' [ans (H4 7 1 8 1) (read_rsp 100 13)] (reply (H4 7 1 8 1) (read_rsp 100 13)) R He);
    [vm_compute; reflexivity|exact S|left; reflexivity].
Qed.
Theorem C84_empty_partial c tr m j now q c' os r : sreach c tr -> sev_ok (SvInd m j now) -> parse m j = PReq (QRead q) ->
  svc_step c (SvInd m j now) = Some (c', os) -> In (SSend r) os -> em_data r = read_rsp now (q_handle (QRead q)) /\ le_at 28 (em_data r) = 0.
Proof.
  intros HR He Hq Hs Hi. destruct (only_ind _ _ _ _ _ _ HR He Hs Hi) as (m' & j' & now' & q' & E & _ & Hp & Sv & _).
  injection E as <- <- <-. assert (q' = QRead q) as -> by congruence. inversion Sv; subst; [|destruct Hi].
  destruct Hi as [Hi|[]]. injection Hi as <-. split; reflexivity.
Qed.
Example C84_case : le_at 28 (read_rsp 5 6) = 0 /\ rhandle (reply (H4 7 1 8 1) (read_rsp 5 6)) = 6.
Proof. split; vm_compute; reflexivity. Qed.

(** * C85 *)

(** Not every request gets a response: an unknown service, or a full table. *)
Definition es_full : list sev := SvInit :: map (fun i => ind 7 1 (Z.of_nat i) invalidSuid 0 (q_cre (Z.of_nat i) 0)) (seq 1 32).
Definition os_full : list (list sout) :=
  [SInitRsp] :: map (fun i => [ans (H4 7 1 (Z.of_nat i) invalidSuid) (create_rsp (Z.of_nat i) 0 (Z.of_nat i) 0 0)]) (seq 1 32).
Theorem C85_refuted : exists c c' m j now, sreach c (combine es_full os_full) /\ sev_ok (SvInd m j now) /\ parse m j = PReq (q_cre 9 0) /\
  svc_step c (SvInd m j now) = Some (c', []).
Proof.
  destruct (souts_last es_full os_full (ind 7 1 99 invalidSuid 0 (q_cre 9 0)) []) as (c & c' & R & He & S & _);
    [vm_compute; reflexivity|reflexivity|vm_compute; reflexivity|].
  exists c, c', (msg_of 7 1 99 invalidSuid (q_cre 9 0)), jzero, 0. split; [exact R|]. split; [exact He|]. split; [vm_compute; reflexivity|exact S].
Qed.
Theorem C85_unknown_refuted : exists c c' m j now, sreach c (combine es2 os2) /\ sev_ok (SvInd m j now) /\
  em_data m = [1; 0; 199; 1] ++ s_reqhdr (hdr_of 1 7) /\ parse m j = POther /\ svc_step c (SvInd m j now) = Some (c', []).
Proof.
  set (m := mkEm (H4 7 1 8 1) (Z.of_nat (length ([1; 0; 199; 1] ++ s_reqhdr (hdr_of 1 7)))) ([1; 0; 199; 1] ++ s_reqhdr (hdr_of 1 7))).
  destruct (souts_last es2 os2 (SvInd m jzero 0) []) as (c & c' & R & He & S & _);
    [vm_compute; reflexivity|reflexivity|vm_compute; reflexivity|].
  exists c, c', m, jzero, 0. split; [exact R|]. split; [exact He|]. split; [reflexivity|]. split; [vm_compute; reflexivity|exact S].
Qed.
(** Which requests are answered. *)
Definition answerable (tr : strace) (h : ehdr) (q : request) : Prop :=
  match q with
  | QEnd _ => True
  | QCre _ => (nlive tr < 32)%nat
  | QAct _ | QClo _ => exists sid, named q = Some sid /\ live sid tr
  | QRead _ => live (e_sess h) tr /\ bound (e_sess h) tr = Some (e_chan h)
  end.
Theorem C85_answered_partial c tr m j now q c' os : sreach c tr -> sev_ok (SvInd m j now) -> running tr = true -> parse m j = PReq q ->
  svc_step c (SvInd m j now) = Some (c', os) ->
  (answerable tr (em_hdr m) q -> length (filter is_send os) = 1%nat) /\ (~ answerable tr (em_hdr m) q -> os = []).
Proof.
  intros HR He Hr Hq Hs. destruct (ind_served _ _ _ _ _ _ _ HR He Hs) as [[X _]|[_ [(q' & Eq & Sv & _)|[[Eq _]|[Eq _]]]]]; try congruence.
  assert (q' = q) as -> by congruence. destruct Sv as [r|r Hf|r sid Hf|r sid Hn Hl|r E|r sid Hn Hl|r E|r Hl Hb|r D E]; cbn [answerable filter is_send length].
  - split; [reflexivity|tauto].
  - split; [lia|reflexivity].
  - split; [reflexivity|tauto].
  - split; [reflexivity|intros N; destruct N; eauto].
  - split; [intros (s & A & B); destruct (E s A); tauto|reflexivity].
  - split; [reflexivity|intros N; destruct N; eauto].
  - split; [intros (s & A & B); destruct (E s A); tauto|reflexivity].
  - split; [reflexivity|tauto].
  - split; [tauto|reflexivity].
Qed.
Example C85_case : answerable (combine es2 os2) (H4 7 1 8 1) (q_rd 0 1 []) /\ ~ answerable (combine es2 os2) (H4 7 2 8 1) (q_rd 0 1 []) /\
  ~ answerable (combine es_full os_full) (H4 7 1 8 1) (q_cre 9 0).
Proof.
  split; [split; vm_compute; reflexivity|]. split; [intros [_ X]; vm_compute in X; discriminate|]. unfold answerable, q_cre.
  replace (nlive (combine es_full os_full)) with 32%nat by (vm_compute; reflexivity). lia.
Qed.

(** * C86 *)

(** The session timeout is confirmed and then ignored: nothing but a close request for it (or a restart) ends a session. *)
Definition ends (sid : Z) (x : sev * list sout) : Prop :=
  match x with (SvInd m j _, _) => exists q, parse m j = PReq (QClo q) /\ named (QClo q) = Some sid | (SvConfig, _) => False | _ => True end.
Theorem C86_stays_partial c tr tr2 sid : sreach c (tr ++ tr2) -> live sid tr -> Forall (fun x => ~ ends sid x) tr2 -> live sid (tr ++ tr2).
Proof.
  intros HR HL HF. revert c HR. induction tr2 as [|x tr2 IH] using rev_ind; intros c HR; [now rewrite app_nil_r|].
  rewrite app_assoc in *. destruct x as [e os]. apply sreach_snoc in HR as (c0 & HR & He & Hs). apply Forall_app in HF as [HF Hx].
  specialize (IH HF _ HR). apply Forall_inv in Hx. set (t := tr ++ tr2) in *. clearbody t. clear HF HL tr tr2.
  unfold live, liveb. rewrite sview_snoc. destruct e as [| |m j now|]; cbn [ends] in Hx; [tauto|exact IH| |tauto].
  cbn [sview_next]. destruct (parse m j) as [[r|r|r|r|r]| | |] eqn:Ep; try exact IH.
  - destruct (ind_served _ _ _ _ _ _ _ HR He Hs) as [[_ ->]|[_ [(q' & Eq & Sv & _)|[[Eq _]|[Eq _]]]]]; [exact IH| |congruence|congruence].
    assert (q' = QCre r) as -> by congruence. inversion Sv as [|? ?|? s ? ? Hn| | | | | |]; subst; [exact IH|]. rewrite create_sid.
    destruct (Z.eqb_spec s sid) as [->|]; [tauto|exact IH].
  - destruct os as [|[x|x|x| | |] [|[y|y|y| | |] [|]]]; try exact IH. destruct (e_sess (em_hdr y) =? sid); exact IH.
  - destruct os as [|[x|x|x| | |] os]; try exact IH. destruct (n_val (rq_token (cl_hdr r))) as [t0|t0|t0|t0] eqn:Et; try exact IH.
    destruct (Z.eqb_spec t0 sid) as [->|]; [|exact IH]. destruct Hx. exists r. split; [auto|]. unfold named. cbn [q_hdr]. now rewrite Et.
Qed.
(** A session created with a timeout of 3 (the bits of a tiny double, in milliseconds) still serves a read an hour (36000000000
    ticks of 100 ns) after it was created. *)
Theorem C86_refuted : exists c c', sreach c (combine es2 os2) /\
  svc_step c (ind 7 1 8 1 36000000000 (q_rd 0 13 [])) = Some (c', [ans (H4 7 1 8 1) (read_rsp 36000000000 13)]).
Proof.
  destruct (souts_last es2 os2 (ind 7 1 8 1 36000000000 (q_rd 0 13 [])) [ans (H4 7 1 8 1) (read_rsp 36000000000 13)]) as (c & c' & R & _ & S & _);
    [vm_compute; reflexivity|reflexivity|vm_compute; reflexivity|eauto].
Qed.
Example C86_case : exists c, sreach c (combine es2 os2 ++ [(ind 7 1 8 1 0 (q_rd 1 1 []), [ans (H4 7 1 8 1) (read_rsp 0 1)])]) /\ live 1 (combine es2 os2) /\
  Forall (fun x => ~ ends 1 x) [(ind 7 1 8 1 0 (q_rd 1 1 []), [ans (H4 7 1 8 1) (read_rsp 0 1)])].
Proof.
  destruct (souts_last es2 os2 (ind 7 1 8 1 0 (q_rd 1 1 [])) [ans (H4 7 1 8 1) (read_rsp 0 1)]) as (c & c' & _ & _ & _ & R);
    [vm_compute; reflexivity|reflexivity|vm_compute; reflexivity|]. exists c'. split; [exact R|]. split; [vm_compute; reflexivity|].
  constructor; [|constructor]. intros (q & E & _). assert (X : parse (msg_of 7 1 8 1 (q_rd 1 1 [])) jzero = PReq (q_rd 1 1 [])) by (vm_compute; reflexivity).
  rewrite X in E. clear - E. unfold q_rd in E. injection E as E. discriminate E.
Qed.

(** * C87 *)

(** The standard encoding of each of the five requests is taken for that request, whatever is left in memory behind it. *)
Theorem C87_recognised m j q : q_wf q -> em_data m = q_octets q -> em_len m = Z.of_nat (length (q_octets q)) -> parse m j = PReq q.
Proof. apply parse_whole. Qed.
(** With octets behind it, too. *)
Theorem C87_prefix m j q rest : q_wf q -> em_data m = q_octets q ++ rest -> em_len m = Z.of_nat (length (em_data m)) -> parse m j = PReq q.
Proof.
  intros Hq Hd Hl. apply parse_of; [auto|]. apply holds_iff. cbn [k_pkt skipn]. unfold eoctets. rewrite Hl, Nat2Z.id, firstn_all, Hd, <- app_assoc. eauto.
Qed.
(** So the component serves it as that request. *)
Theorem C87_served c tr m j now q rest : sreach c tr -> sev_ok (SvInd m j now) -> running tr = true -> q_wf q ->
  em_data m = q_octets q ++ rest -> em_len m = Z.of_nat (length (em_data m)) -> ~ stray (em_hdr m) q ->
  exists c' os, svc_step c (SvInd m j now) = Some (c', os) /\ served tr (em_hdr m) now q os.
Proof.
  intros HR He Hr Hq Hd Hl. apply (request_step c tr m j now q HR He Hr). eapply C87_prefix; eauto.
Qed.
Example C87_case : q_wf (q_act 1 12) /\ q_octets (q_act 1 12) = [1; 0; 211; 1] ++ [0; 1] ++ repeat 0 8 ++ [12; 0; 0; 0] ++ repeat 0 4 ++ repeat 255 4 ++ repeat 0 4 ++ [0; 0; 0] ++
  repeat 255 8 ++ repeat 0 8 ++ [0; 0; 0] ++ repeat 255 8.
Proof.
  split; [|vm_compute; reflexivity]. cbn [q_wf q_act]. unfold wf_asreq, wf_reqhdr, hdr_of, wf_nodeid, wf_str, wf_extobj, wf_nodeid, wf_sigdata, wf_arr, wf_str.
  cbn. unfold is_u16, is_u32, is_i64. repeat split; try lia; try constructor.
Qed.

(** * C88 *)

(** A message that is not a request changes nothing and gets no response... *)
Theorem C88_other_partial c tr m j now : sreach c tr -> sev_ok (SvInd m j now) -> parse m j = POther \/ parse m j = PThrow ->
  exists os, svc_step c (SvInd m j now) = Some (c, os) /\ (os = [] \/ os = [SThrow]).
Proof.
  intros HR (Hm & Hj & _) Hp. destruct c as [v|]; [|exists []; auto]. rewrite step_ind, ind_eq by auto.
  destruct Hp as [-> | ->]; eauto.
Qed.
(** ... but some of them, here a single octet, end the process. *)
Theorem C88_refuted : exists c m j now, sreach c (combine es2 os2) /\ sev_ok (SvInd m j now) /\ em_data m = [6] /\ em_len m = 1 /\ svc_step c (SvInd m j now) = None.
Proof.
  destruct (souts_undef es2 os2 (SvInd (mkEm (H4 7 1 8 1) 1 [6]) jzero 0)) as (c & R & He & Hs); [vm_compute; reflexivity|vm_compute; reflexivity|].
  exists c, (mkEm (H4 7 1 8 1) 1 [6]), jzero, 0. auto.
Qed.
Example C88_case : parse (mkEm (H4 7 1 8 1) 4 [1; 0; 9; 9]) jzero = POther /\ parse (mkEm (H4 7 1 8 1) 4 ([1; 0; 220; 1])) jzero = POther /\
  parse (mkEm (H4 7 1 8 1) 26 ([1; 0; 217; 1; 0; 1] ++ repeat 0 16 ++ [254; 255; 255; 255])) jzero = PThrow.
Proof. split; [|split]; vm_compute; reflexivity. Qed.

Print Assumptions C48_service.
Print Assumptions C49_read_guarded.
Print Assumptions C49_read_answered.
Print Assumptions C49_bound_means.
Print Assumptions C50_create.
Print Assumptions C50_account.
Print Assumptions C50_close.
Print Assumptions C51_refuted.
Print Assumptions C51_activate_partial.
Print Assumptions C51_close_partial.
Print Assumptions C52_refuted.
Print Assumptions C52_in_range_partial.
Print Assumptions C81_endpoints.
Print Assumptions C82_lifecycle.
Print Assumptions C82_always.
Print Assumptions C83_refuted.
Print Assumptions C83_token_partial.
Print Assumptions C84_refuted.
Print Assumptions C84_empty_partial.
Print Assumptions C85_refuted.
Print Assumptions C85_unknown_refuted.
Print Assumptions C85_answered_partial.
Print Assumptions C86_stays_partial.
Print Assumptions C86_refuted.
Print Assumptions C87_recognised.
Print Assumptions C87_prefix.
Print Assumptions C87_served.
Print Assumptions C88_other_partial.
Print Assumptions C88_refuted.
