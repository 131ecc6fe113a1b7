(** Facts about whole histories of the service layer. *)
From Verif Require Import Base QueueModel QueueSpec QueueProofs PoolModel PoolSpec PoolProofs EntProofs ModbusCodecModel ModbusCodecSpec ModbusCodecProofs
  ModbusClientModel ModbusClientProofs
  UaCodecModel UaCodecSpec UaCodecProofs UaTcpModel UaTcpSpec UaTcpProofs UaTcpRuns UaChanModel UaChanSpec UaChanProofs UaChanRuns
  UaServiceModel UaServiceSpec UaServiceProofs.
Local Open Scope Z_scope.

Definition sact (s : sess) : bool := match ss_st s with SsInit => false | _ => true end.
Notation SOwn := (POwn sess sact 32).
Definition SO (s : sess) (w : sview) : Prop :=
  match ss_st s with
  | SsInit => w_new w = w_end w /\ w_chan w = None /\ ss_chan s = None
  | SsCreated => w_new w = S (w_end w) /\ w_chan w = None /\ ss_chan s = None
  | SsActivated => w_new w = S (w_end w) /\ exists c, w_chan w = Some c /\ ss_chan s = Some c
  end.
Definition SInv (c : option svc) (tr : strace) : Prop :=
  match c with
  | None => running tr = false /\ forall sid, sview_of sid tr = sview0
  | Some v => running tr = true /\ (forall i s, nth_error (v_ss v) i = Some s -> SO s (sview_of (Z.of_nat i + 1) tr)) /\
      SOwn (v_pool v) (v_ss v) 0 /\ forall sid, ~ 1 <= sid <= 32 -> sview_of sid tr = sview0
  end.

Lemma sview_snoc sid tr x : sview_of sid (tr ++ [x]) = sview_next sid (sview_of sid tr) x.
Proof. unfold sview_of. now rewrite fold_left_app. Qed.
Lemma running_snoc tr x : running (tr ++ [x]) = runs_next (running tr) x.
Proof. unfold running. now rewrite fold_left_app. Qed.
Lemma SO_live s sid tr : SO s (sview_of sid tr) -> liveb sid tr = sact s.
Proof.
  unfold SO, liveb, sact. destruct (ss_st s).
  - intros (-> & _). apply Nat.eqb_neq. lia.
  - intros (-> & _). apply Nat.eqb_refl.
  - intros (-> & _). apply Nat.eqb_refl.
Qed.

Lemma live_count tr l : forall k, (forall i s, nth_error l i = Some s -> liveb (Z.of_nat (k + i) + 1) tr = sact s) ->
  length (filter (fun s => liveb s tr) (map (fun i => Z.of_nat i + 1) (seq k (length l)))) = nact sess sact l.
Proof.
  induction l as [|s l IH]; intros k H; [reflexivity|]. cbn [length seq map filter]. unfold nact. cbn [filter].
  pose proof (H 0%nat s eq_refl) as H0. rewrite Nat.add_0_r in H0. rewrite H0.
  assert (IH' := IH (S k)). unfold nact in IH'. destruct (sact s); cbn [length]; rewrite IH'; auto;
    intros i x Hx; replace (S k + i)%nat with (k + S i)%nat by lia; now apply H.
Qed.
Lemma nlive_eq v tr : SInv (Some v) tr -> nlive tr = nact sess sact (v_ss v).
Proof.
  intros (_ & S & O & _). unfold nlive, sids. rewrite <- (own_len _ _ _ _ _ _ O). apply live_count.
  intros i s Hi. cbn [Nat.add]. apply SO_live. now apply S.
Qed.
Lemma live_range v tr sid : SInv (Some v) tr -> live sid tr -> 1 <= sid <= 32.
Proof.
  intros (_ & _ & _ & R) H. unfold live, liveb in H. destruct (Z_le_dec 1 sid), (Z_le_dec sid 32); try lia;
    rewrite R in H by lia; discriminate.
Qed.

Definition is_sfree (o : sout) : bool := match o with SFree _ => true | _ => false end.
Lemma srelease_filter os : forall p, svc_release p os = svc_release p (filter is_sfree os).
Proof. induction os as [|o os IH]; intros p; cbn; [auto|]. destruct o; cbn; auto. destruct (pool_release p sid); auto. Qed.

Lemma sess_in v tr sid : SInv (Some v) tr -> 1 <= sid <= 32 -> exists s, nth_error (v_ss v) (Z.to_nat (sid - 1)) = Some s /\
  SO s (sview_of sid tr) /\ pool_get (v_pool v) sid = Some (Z.to_nat (sid - 1)).
Proof.
  intros (_ & S & O & _) Hu. destruct c32 as (C1 & C2 & C3). assert (Hu32 : is_u32 sid) by (unfold is_u32; lia).
  rewrite (own_get _ _ _ C1 C2 C3 _ _ _ _ O Hu32). change (Z.of_nat 32) with 32.
  destruct (Z.leb_spec 1 sid), (Z.leb_spec sid 32); try lia. cbn [andb].
  destruct (nth_error (v_ss v) (Z.to_nat (sid - 1))) as [c|] eqn:En.
  - exists c. split; [auto|]. split; [|auto]. specialize (S _ _ En). now replace (Z.of_nat (Z.to_nat (sid - 1)) + 1) with sid in S by lia.
  - apply nth_error_None in En. rewrite (own_len _ _ _ _ _ _ O) in En. lia.
Qed.
Lemma sess_out v tr sid k : SInv (Some v) tr -> is_u32 sid -> ~ 1 <= sid <= 32 -> svc_on v sid k = None.
Proof.
  intros (_ & S & O & _) Hu Hn. destruct c32 as (C1 & C2 & C3). unfold svc_on.
  rewrite (own_get _ _ _ C1 C2 C3 _ _ _ _ O Hu). change (Z.of_nat 32) with 32.
  destruct (Z.leb_spec 1 sid), (Z.leb_spec sid 32); try lia; reflexivity.
Qed.

(** A session handles an event. *)
Lemma on_sess v tr sid k s s' os m j now : SInv (Some v) tr -> 1 <= sid <= 32 -> nth_error (v_ss v) (Z.to_nat (sid - 1)) = Some s ->
  k s = Some (s', os) ->
  filter is_sfree os = (if negb (sact s') && sact s then [SFree sid] else []) -> (sact s = false -> sact s' = false) ->
  SO s' (sview_next sid (sview_of sid tr) (SvInd m j now, os)) ->
  (forall u, u <> sid -> sview_next u (sview_of u tr) (SvInd m j now, os) = sview_of u tr) ->
  exists v', svc_on v sid k = Some (v', os) /\ SInv (Some v') (tr ++ [(SvInd m j now, os)]).
Proof.
  intros HI Hu En Hk Hf Ha HS Ho. destruct (sess_in _ _ _ HI Hu) as (s0 & En' & HC & Eg).
  assert (s0 = s) as -> by congruence. clear En'. pose proof HI as (R & S & O & Out). destruct c32 as (C1 & C2 & C3).
  unfold svc_on. rewrite Eg, En, Hk. set (i := Z.to_nat (sid - 1)) in *. assert (Hi : Z.of_nat i + 1 = sid) by lia.
  assert (Hlt : (i < length (v_ss v))%nat) by (apply nth_error_Some; congruence).
  rewrite srelease_filter, Hf.
  assert (HO : exists p', svc_release (v_pool v) (if negb (sact s') && sact s then [SFree sid] else []) = Some p' /\ SOwn p' (upd (v_ss v) i s') 0).
  { destruct (sact s') eqn:E1, (sact s) eqn:E2; cbn [andb negb svc_release].
    - exists (v_pool v). split; [auto|]. eapply (own_keep _ _ _ C1); [exact O|exact En|congruence].
    - specialize (Ha eq_refl). congruence.
    - destruct (own_free _ _ _ C1 C2 _ _ _ _ _ s' O En E2 E1) as (p2 & Ep & HO). rewrite Hi in Ep. rewrite Ep. eauto.
    - exists (v_pool v). split; [auto|]. eapply (own_keep _ _ _ C1); [exact O|exact En|congruence]. }
  destruct HO as (p' & Ep & HO). rewrite Ep. eexists. split; [reflexivity|]. cbn [SInv v_pool v_ss].
  split; [rewrite running_snoc; exact R|]. split; [|split; [exact HO|]].
  - intros n x Hn. rewrite sview_snoc. destruct (Nat.eq_dec n i) as [->|Hne].
    + rewrite nth_error_upd_eq in Hn by auto. injection Hn as <-. rewrite Hi. exact HS.
    + rewrite nth_error_upd_neq in Hn by auto. rewrite Ho by lia. now apply S.
  - intros u Hn. rewrite sview_snoc, Ho by lia. now apply Out.
Qed.
(** Nothing happens. *)
Lemma idle v tr m j now os : SInv (Some v) tr -> (forall u, sview_next u (sview_of u tr) (SvInd m j now, os) = sview_of u tr) ->
  SInv (Some v) (tr ++ [(SvInd m j now, os)]).
Proof.
  intros (R & S & O & Out) H. cbn [SInv]. split; [rewrite running_snoc; exact R|]. split; [|split; [exact O|]].
  - intros n x Hn. rewrite sview_snoc, H. now apply S.
  - intros u Hn. rewrite sview_snoc, H. now apply Out.
Qed.
Lemma view_nil u w m j now : sview_next u w (SvInd m j now, []) = w.
Proof. cbn [sview_next]. destruct (parse m j) as [[r|r|r|r|r]| | |]; reflexivity. Qed.

Lemma ind_ok v tr m j now : SInv (Some v) tr -> sev_ok (SvInd m j now) ->
  match parse m j with
  | PReq q =>
      (exists v' os, svc_ind v m j now = Some (v', os) /\ SInv (Some v') (tr ++ [(SvInd m j now, os)]) /\ served tr (em_hdr m) now q os /\
         ~ stray (em_hdr m) q) \/
      (svc_ind v m j now = None /\ stray (em_hdr m) q)
  | POther => svc_ind v m j now = Some (v, []) /\ SInv (Some v) (tr ++ [(SvInd m j now, [])])
  | PThrow => svc_ind v m j now = Some (v, [SThrow]) /\ SInv (Some v) (tr ++ [(SvInd m j now, [SThrow])])
  | PBad => svc_ind v m j now = None
  end.
Proof.
  intros HI (Hm & Hj & Hn). pose proof (ind_eq v m j now Hm Hj) as E. pose proof (parse_hdr m j) as PH.
  assert (SN : forall u os, sview_next u (sview_of u tr) (SvInd m j now, os) =
     match parse m j, os with
      | PReq (QCre _), [SSend r] => if rsession r =? u then mkSw (S (w_new (sview_of u tr))) (w_end (sview_of u tr)) None else sview_of u tr
      | PReq (QAct _), [SAssoc _; SSend r] => if e_sess (em_hdr r) =? u then mkSw (w_new (sview_of u tr)) (w_end (sview_of u tr)) (Some (e_chan (em_hdr r))) else sview_of u tr
      | PReq (QClo c), SSend r :: _ =>
          match n_val (rq_token (cl_hdr c)) with
          | IdNum t => if t =? u then mkSw (w_new (sview_of u tr)) (S (w_end (sview_of u tr))) None else sview_of u tr
          | _ => sview_of u tr
          end
      | _, _ => sview_of u tr
      end) by reflexivity.
  destruct (parse m j) as [q| | |]; [|split; [exact E|apply idle; auto; intros; apply SN]..|exact E].
  specialize (PH q Hm Hj eq_refl). destruct PH as [Hh Ht]. rewrite E. clear E.
  assert (Hse : is_u32 (e_sess (em_hdr m))) by (destruct Hm as ((_ & _ & _ & X) & _); exact X).
  destruct q as [r|r|r|r|r]; cbn [handle_q q_hdr] in *.
  - left. rewrite send_ep. eexists _, _. split; [reflexivity|]. split; [apply idle; auto|]. split; [constructor|intros []].
  - left. pose proof HI as (R & S & O & Out). destruct c32 as (C1 & C2 & C3). pose proof (nlive_eq _ _ HI) as NL.
    destruct (own_alloc _ _ _ C1 C2 _ _ _ O) as [(Hf & p' & Ep & O')|(Hf & p' & i & s & Ep & En & Ha & O1 & O2 & Eg)]; rewrite Ep.
    + eexists _, _. split; [reflexivity|]. split; [|split; [apply sv_full; lia|intros []]].
      assert (X : SInv (Some (mkSv p' (v_ss v))) tr) by (cbn [SInv v_ss v_pool]; auto).
      apply idle; [exact X|]. intros u. rewrite SN. reflexivity.
    + set (sid := Z.of_nat i + 1) in *.
      assert (Hlt : (i < 32)%nat) by (rewrite <- (own_len _ _ _ _ _ _ O); apply nth_error_Some; congruence).
      assert (Hsid : 1 <= sid <= 32) by lia.
      unfold svc_on. cbn [v_pool v_ss]. rewrite Eg, (own_get _ _ _ C1 C2 C3 _ _ _ _ O) by lia. change (Z.of_nat 32) with 32.
      destruct (Z.leb_spec 1 sid); [|lia]. destruct (Z.leb_spec sid 32); [|lia]. cbn [andb].
      replace (Z.to_nat (sid - 1)) with i by lia. rewrite En.
      pose proof (S i s En) as HS. fold sid in HS. pose proof (SO_live _ _ _ HS) as HL. rewrite Ha in HL.
      assert (Hst : ss_st s = SsInit) by (unfold sact in Ha; destruct (ss_st s); congruence || reflexivity).
      unfold s_create. rewrite Hst.
      change (enc_cont enc_csrsp _) with (csrsp_of sid now (rq_handle (cs_hdr r)) (cs_tmo r) (cs_max r)). rewrite send_cs by auto.
      cbn [andsend svc_release]. eexists _, _. split; [reflexivity|]. split; [|split; [apply sv_create; auto; [lia|unfold live; congruence]|intros []]].
      unfold SO in HS. rewrite Hst in HS. destruct HS as (HS1 & HS2 & HS3).
      cbn [SInv v_ss v_pool]. split; [rewrite running_snoc; exact R|]. split; [|split; [now apply O1|]].
      * intros n x Hx. rewrite sview_snoc, SN, create_sid. destruct (Nat.eq_dec n i) as [->|Hne].
        -- rewrite nth_error_upd_eq in Hx by (rewrite (own_len _ _ _ _ _ _ O); auto). injection Hx as <-. fold sid. rewrite Z.eqb_refl.
           unfold SO. cbn [ss_st ss_chan w_new w_end w_chan]. split; [congruence|auto].
        -- rewrite nth_error_upd_neq in Hx by auto. destruct (Z.eqb_spec sid (Z.of_nat n + 1)); [lia|]. now apply S.
      * intros u Hu. rewrite sview_snoc, SN, create_sid. destruct (Z.eqb_spec sid u); [lia|]. now apply Out.
  - unfold on_token. unfold stray, named. cbn [q_hdr]. destruct (n_val (rq_token (as_hdr r))) as [sid|x|x|x] eqn:Et.
    2-4: left; eexists _, _; split; [reflexivity|]; split; [apply idle; auto; intros; now rewrite SN|]; split; [|intros (sid & X & _); discriminate];
      apply sv_noactivate; unfold named; cbn [q_hdr]; rewrite Et; discriminate.
    assert (D : 1 <= sid <= 32 \/ ~ 1 <= sid <= 32) by lia. destruct D as [D|D].
    2:{ right. split; [eapply sess_out; eauto|eauto]. }
    left. destruct (sess_in _ _ _ HI D) as (s & En & HC & Eg). pose proof (SO_live _ _ _ HC) as HL.
    destruct (sact s) eqn:Ea.
    + assert (X : s_activate sid s (em_hdr m) r now = Some (mkSs SsActivated (Some (e_chan (em_hdr m))),
         [SAssoc (to_session (em_hdr m) sid); SSend (reply (to_session (em_hdr m) sid) (activate_rsp now (rq_handle (as_hdr r))))])).
      { unfold s_activate. change (enc_cont enc_asrsp _) with (asrsp_of now (rq_handle (as_hdr r))). rewrite send_as.
        unfold sact in Ea. destruct (ss_st s); [discriminate|reflexivity|reflexivity]. }
      destruct (on_sess v tr sid (fun s => s_activate sid s (em_hdr m) r now) s _ _ m j now HI D En X) as (v' & Ev & HI').
      * rewrite Ea. reflexivity.
      * congruence.
      * rewrite SN. cbn [em_hdr reply e_sess e_chan to_session]. rewrite Z.eqb_refl. unfold SO. cbn [ss_st ss_chan w_new w_end w_chan].
        split; [|eauto]. unfold liveb in HL. now apply Nat.eqb_eq in HL.
      * intros u Hu. rewrite SN. cbn [em_hdr reply e_sess to_session]. destruct (Z.eqb_spec sid u); congruence.
      * rewrite Ev. eexists _, _. split; [reflexivity|]. split; [exact HI'|]. split.
        -- apply sv_activate; [unfold named; cbn [q_hdr]; now rewrite Et|exact HL].
        -- intros (sid' & X1 & X2). injection X1 as <-. auto.
    + assert (X : s_activate sid s (em_hdr m) r now = Some (s, [])) by (unfold s_activate, sact in *; destruct (ss_st s); auto; discriminate).
      destruct (on_sess v tr sid (fun s => s_activate sid s (em_hdr m) r now) s _ _ m j now HI D En X) as (v' & Ev & HI').
      * rewrite Ea. reflexivity.
      * congruence.
      * rewrite SN. exact HC.
      * intros u Hu. now rewrite SN.
      * rewrite Ev. eexists _, _. split; [reflexivity|]. split; [exact HI'|]. split.
        -- apply sv_noactivate. unfold named. cbn [q_hdr]. rewrite Et. intros sid' X1. injection X1 as <-. split; [auto|]. unfold live. congruence.
        -- intros (sid' & X1 & X2). injection X1 as <-. auto.
  - unfold on_token. unfold stray, named. cbn [q_hdr]. destruct (n_val (rq_token (cl_hdr r))) as [sid|x|x|x] eqn:Et.
    2-4: left; eexists _, _; split; [reflexivity|]; split; [apply idle; auto; intros; now rewrite SN|]; split; [|intros (sid & X & _); discriminate];
      apply sv_noclose; unfold named; cbn [q_hdr]; rewrite Et; discriminate.
    assert (D : 1 <= sid <= 32 \/ ~ 1 <= sid <= 32) by lia. destruct D as [D|D].
    2:{ right. split; [eapply sess_out; eauto|eauto]. }
    left. destruct (sess_in _ _ _ HI D) as (s & En & HC & Eg). pose proof (SO_live _ _ _ HC) as HL.
    destruct (sact s) eqn:Ea.
    + assert (X : s_close sid s (em_hdr m) r now = Some (mkSs SsInit None,
         [SSend (reply (em_hdr m) (close_session_rsp now (rq_handle (cl_hdr r)))); SFree sid])).
      { unfold s_close. change (enc_cont enc_clsrsp _) with (clsrsp_of now (rq_handle (cl_hdr r))). rewrite send_cls.
        unfold sact in Ea. destruct (ss_st s); [discriminate|reflexivity|reflexivity]. }
      destruct (on_sess v tr sid (fun s => s_close sid s (em_hdr m) r now) s _ _ m j now HI D En X) as (v' & Ev & HI').
      * rewrite Ea. reflexivity.
      * congruence.
      * rewrite SN, Z.eqb_refl. unfold SO. cbn [ss_st ss_chan w_new w_end w_chan].
        split; [|auto]. unfold liveb in HL. now apply Nat.eqb_eq in HL.
      * intros u Hu. rewrite SN. destruct (Z.eqb_spec sid u); congruence.
      * rewrite Ev. eexists _, _. split; [reflexivity|]. split; [exact HI'|]. split.
        -- apply sv_close; [unfold named; cbn [q_hdr]; now rewrite Et|exact HL].
        -- intros (sid' & X1 & X2). injection X1 as <-. auto.
    + assert (X : s_close sid s (em_hdr m) r now = Some (s, [])) by (unfold s_close, sact in *; destruct (ss_st s); auto; discriminate).
      destruct (on_sess v tr sid (fun s => s_close sid s (em_hdr m) r now) s _ _ m j now HI D En X) as (v' & Ev & HI').
      * rewrite Ea. reflexivity.
      * congruence.
      * rewrite SN. exact HC.
      * intros u Hu. now rewrite SN.
      * rewrite Ev. eexists _, _. split; [reflexivity|]. split; [exact HI'|]. split.
        -- apply sv_noclose. unfold named. cbn [q_hdr]. rewrite Et. intros sid' X1. injection X1 as <-. split; [auto|]. unfold live. congruence.
        -- intros (sid' & X1 & X2). injection X1 as <-. auto.
  - unfold stray. destruct (Z.eqb_spec (e_sess (em_hdr m)) invalidSuid) as [Hi|Hi].
    + left. eexists _, _. split; [reflexivity|]. split; [apply idle; auto; intros; now rewrite SN|]. split; [|intros [X _]; auto].
      apply sv_noread; [auto|]. intros [X _]. apply (live_range _ _ _ HI) in X. unfold invalidSuid in Hi. lia.
    + set (sid := e_sess (em_hdr m)) in *. assert (D : 1 <= sid <= 32 \/ ~ 1 <= sid <= 32) by lia. destruct D as [D|D].
      2:{ right. split; [eapply sess_out; eauto|auto]. }
      left. destruct (sess_in _ _ _ HI D) as (s & En & HC & Eg). pose proof (SO_live _ _ _ HC) as HL.
      assert (Y : bound sid tr = ss_chan s).
      { unfold bound. unfold SO in HC. destruct (ss_st s); [destruct HC as (_ & -> & ->)|destruct HC as (_ & -> & ->)|destruct HC as (_ & c & -> & ->)]; reflexivity. }
      assert (X : s_read s (em_hdr m) r now = Some (s,
         if sact s && match bound sid tr with Some c => c =? e_chan (em_hdr m) | None => false end
         then [SSend (reply (em_hdr m) (read_rsp now (rq_handle (rr_hdr r))))] else [])).
      { unfold s_read. change (enc_cont enc_rdrsp _) with (rdrsp_of now (rq_handle (rr_hdr r))). rewrite send_rd, Y.
        unfold sact. unfold SO in HC. destruct (ss_st s) eqn:Es; cbn [andb].
        - reflexivity.
        - destruct HC as (_ & _ & ->). reflexivity.
        - destruct HC as (_ & c & _ & ->). destruct (c =? e_chan (em_hdr m)); reflexivity. }
      destruct (on_sess v tr sid (fun s => s_read s (em_hdr m) r now) s _ _ m j now HI D En X) as (v' & Ev & HI').
      * destruct (sact s && _); destruct (sact s); reflexivity.
      * auto.
      * rewrite SN. exact HC.
      * intros u Hu. now rewrite SN.
      * rewrite Ev. eexists _, _. split; [reflexivity|]. split; [exact HI'|]. split; [|intros [X1 X2]; auto].
        destruct (sact s) eqn:Ea; cbn [andb].
        -- destruct (bound sid tr) as [c|] eqn:Eb.
           ++ destruct (Z.eqb_spec c (e_chan (em_hdr m))) as [->|Hc].
              ** apply sv_read; [exact HL|exact Eb].
              ** apply sv_noread; [right; exact D|]. intros [_ Z]. fold sid in Z. congruence.
           ++ apply sv_noread; [right; exact D|]. intros [_ Z]. fold sid in Z. congruence.
        -- apply sv_noread; [right; exact D|]. intros [Z _]. unfold live in Z. fold sid in Z. congruence.
Qed.

Lemma sinv_new v tr os : svc_new = Some v -> SInv (Some v) (tr ++ [(SvInit, os)]).
Proof.
  unfold svc_new. destruct (pool_new 1 32) as [p|] eqn:Ep; [|discriminate]. unfold option_map. remember (repeat (mkSs SsInit None) 32) as l eqn:El.
  intros H. injection H as <-.
  assert (V : forall u, sview_of u (tr ++ [(SvInit, os)]) = sview0) by (intros; now rewrite sview_snoc).
  assert (L : forall s, In s l -> s = mkSs SsInit None) by (subst l; intros s; apply repeat_spec).
  assert (N : length l = 32%nat) by (subst l; apply repeat_length). clear El.
  cbn [SInv v_ss v_pool]. split; [now rewrite running_snoc|]. split; [|split].
  - intros i s Hi. apply nth_error_In, L in Hi as ->. rewrite V. cbn. auto.
  - apply own_new; auto. intros e He. apply L in He as ->. reflexivity.
  - auto.
Qed.
Lemma svc_new_ok : exists v, svc_new = Some v.
Proof. unfold svc_new. eexists. vm_compute. reflexivity. Qed.

Lemma step_init c c' os : svc_step c SvInit = Some (c', os) -> exists v, svc_new = Some v /\ c' = Some v /\ os = [SInitRsp].
Proof. unfold svc_step. destruct svc_new as [v|]; [|discriminate]. intros H. apply some2 in H as (<- & <-). eauto. Qed.
Lemma step_config c c' os : svc_step c SvConfig = Some (c', os) -> c' = c /\ os = [].
Proof. unfold svc_step. intros H. apply some2 in H as (<- & <-). auto. Qed.
Lemma step_release c c' os : svc_step c SvRelease = Some (c', os) -> c' = None /\ os = [SReleaseRsp].
Proof. unfold svc_step. intros H. apply some2 in H as (<- & <-). auto. Qed.
Lemma step_ind v m j now : svc_step (Some v) (SvInd m j now) = match svc_ind v m j now with Some (v', os) => Some (Some v', os) | None => None end.
Proof. reflexivity. Qed.
Lemma step_none m j now : svc_step None (SvInd m j now) = Some (None, []).
Proof. reflexivity. Qed.

Lemma sstep_inv c tr e c' os : SInv c tr -> sev_ok e -> svc_step c e = Some (c', os) -> SInv c' (tr ++ [(e, os)]).
Proof.
  intros HI He H. destruct e as [| |m j now|].
  - apply step_init in H as (v & Ev & -> & ->). now apply sinv_new.
  - apply step_config in H as (-> & ->). destruct c as [v|]; cbn [SInv] in *.
    + destruct HI as (R & S & O & Out). split; [now rewrite running_snoc|]. split; [|split; auto].
      * intros i s Hi. rewrite sview_snoc. now apply S.
      * intros. rewrite sview_snoc. now apply Out.
    + destruct HI as [R Out]. split; [now rewrite running_snoc|]. intros. rewrite sview_snoc. apply Out.
  - destruct c as [v|].
    + rewrite step_ind in H. pose proof (ind_ok v tr m j now HI He) as X. destruct (svc_ind v m j now) as [[v' o]|] eqn:Ei; [|discriminate].
      apply some2 in H as (<- & <-). destruct (parse m j) as [q| | |].
      * destruct X as [(v2 & o2 & E & X & _)|[E _]]; [|discriminate]. apply some2 in E as (-> & ->). exact X.
      * destruct X as [E X]. apply some2 in E as (-> & ->). exact X.
      * destruct X as [E X]. apply some2 in E as (-> & ->). exact X.
      * discriminate.
    + rewrite step_none in H. apply some2 in H as (<- & <-). destruct HI as [R Out]. split; [now rewrite running_snoc|]. intros u. rewrite sview_snoc, view_nil. apply Out.
  - apply step_release in H as (-> & ->). split; [now rewrite running_snoc|]. intros. now rewrite sview_snoc.
Qed.
Lemma sreach_inv c tr : sreach c tr -> SInv c tr.
Proof. induction 1 as [|c tr e c' os H IH He Hs]; [split; reflexivity|eapply sstep_inv; eauto]. Qed.
Lemma sreach_split c tr : sreach c tr -> forall tr1 e os tr2, tr = tr1 ++ (e, os) :: tr2 ->
  exists c1 c2, sreach c1 tr1 /\ sev_ok e /\ svc_step c1 e = Some (c2, os) /\ sreach c2 (tr1 ++ [(e, os)]).
Proof.
  induction 1 as [|c tr e c' os H IH Hev Hs]; intros tr1 e1 os1 tr2 E.
  - destruct tr1; discriminate.
  - destruct tr2 as [|x tr2'] using rev_ind.
    + apply app_inj_tail in E as [E1 E2]. injection E2 as E2 E3. subst. exists c, c'. repeat split; auto. econstructor; eauto.
    + clear IHtr2'. rewrite app_comm_cons, app_assoc in E. apply app_inj_tail in E as [E _]. eapply IH; eauto.
Qed.
Lemma running_iff c tr : sreach c tr -> (running tr = true <-> exists v, c = Some v).
Proof.
  intros H. apply sreach_inv in H. destruct c as [v|]; cbn [SInv] in H.
  - destruct H as (-> & _). split; eauto.
  - destruct H as (-> & _). split; [discriminate|intros (v & X); discriminate].
Qed.

(** What a message to the component leads to. *)
Lemma ind_served c tr m j now c' os : sreach c tr -> sev_ok (SvInd m j now) -> svc_step c (SvInd m j now) = Some (c', os) ->
  (running tr = false /\ os = []) \/
  (running tr = true /\ ((exists q, parse m j = PReq q /\ served tr (em_hdr m) now q os /\ ~ stray (em_hdr m) q) \/
                          (parse m j = POther /\ os = []) \/ (parse m j = PThrow /\ os = [SThrow]))).
Proof.
  intros HR He H. apply sreach_inv in HR. destruct c as [v|]; [rewrite step_ind in H|rewrite step_none in H].
  - right. split; [apply HR|]. pose proof (ind_ok v tr m j now HR He) as X. destruct (svc_ind v m j now) as [[v' o]|] eqn:Ei; [|discriminate].
    apply some2 in H as (<- & <-). destruct (parse m j) as [q| | |].
    + destruct X as [(v2 & o2 & E & _ & X)|[E _]]; [|discriminate]. apply some2 in E as (-> & ->). left. eauto.
    + destruct X as [E _]. apply some2 in E as (-> & ->). auto.
    + destruct X as [E _]. apply some2 in E as (-> & ->). auto.
    + discriminate.
  - left. apply some2 in H as (<- & <-). split; [apply HR|auto].
Qed.
