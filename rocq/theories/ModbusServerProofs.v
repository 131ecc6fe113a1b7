(** Session-level facts about the Modbus server. *)
From Verif Require Import Base QueueModel PoolModel ModbusCodecModel ModbusCodecSpec ModbusCodecProofs
  ModbusClientModel ModbusClientSpec ModbusClientProofs ModbusClientRuns ModbusServerModel ModbusServerSpec.
Local Open Scope Z_scope.

(** * decode_into *)

Ltac wcbn := cbn [w_tid w_func w_addr w_start w_nitems w_nbytes w_data
  q_tid q_func q_addr q_start q_nitems q_nbytes q_data].
Ltac wcbn_in H := cbn [w_tid w_func w_addr w_start w_nitems w_nbytes w_data
  q_tid q_func q_addr q_start q_nitems q_nbytes q_data] in H.
Ltac dsplit :=
  repeat match goal with
  | |- context [match ?b with [] => _ | _ :: _ => _ end] => destruct b; [reflexivity|]
  | |- context [if ?c then _ else _] => destruct c; try reflexivity
  | |- context [match rd_pairs ?k ?i ?d ?r with _ => _ end] => destruct (rd_pairs k i d r) as [[? ?]|] eqn:?; try reflexivity
  end.

Lemma decode_into_erase buf q :
  decode_req buf q = match decode_into buf q with IOk q' r => DOk q' r | IFail _ r => DFail r | IUB => DUB end.
Proof.
  unfold decode_req, decode_into, rdBe, irdBe, rd, ird. wcbn. dsplit.
Qed.

(** The stored request record of a session. *)
Definition adu_ok (q : adu_req) : Prop := req_ok q /\ length (q_data q) = 260%nat /\ q_nbytes q <= 255.

Lemma upd_bytes l i x : bytes_ok l -> is_byte x -> bytes_ok (upd l i x).
Proof.
  intros H Hx. revert i. induction H as [|y l Hy Hl IH]; intros [|i]; cbn; try constructor; auto; apply IH.
Qed.

Lemma rd_pairs_bytes k : forall i d r d' r', bytes_ok d -> bytes_ok r ->
  rd_pairs k i d r = Some (d', r') -> bytes_ok d'.
Proof.
  induction k as [|k IH]; intros i d r d' r' Hd Hr H; cbn [rd_pairs] in H.
  - now injection H as <- <-.
  - destruct r as [|a [|b r]]; try discriminate. destruct (S i <? length d)%nat; [|discriminate].
    inversion Hr as [|? ? Ha Hr1]; subst. inversion Hr1 as [|? ? Hb Hr2]; subst.
    eapply IH; [| |exact H]; auto using upd_bytes.
Qed.

Lemma be_u16 h l : is_byte h -> is_byte l -> is_u16 (h * 256 + l).
Proof. unfold is_byte, is_u16. lia. Qed.

Definition dres (d : dinto) : option adu_req :=
  match d with IOk q _ | IFail q _ => Some q | IUB => None end.

Lemma decode_into_ok buf q q' : bytes_ok buf -> adu_ok q -> dres (decode_into buf q) = Some q' -> adu_ok q'.
Proof.
  intros Hb ((H1 & H2 & H3 & H4 & H5 & H6 & H7 & H8) & Hl & Hn) H.
  unfold decode_into, irdBe, ird in H.
  repeat match type of H with
  | context [match ?b with [] => _ | _ :: _ => _ end] =>
      destruct b; [discriminate H|]; apply Forall_cons_iff in Hb as [? Hb]
  | context [if ?c then _ else _] => destruct c eqn:? in H; try discriminate H
  | context [match rd_pairs ?k ?i ?d ?r with _ => _ end] => destruct (rd_pairs k i d r) as [[? ?]|] eqn:?; try discriminate H
  end; cbn [dres] in H; injection H as <-; unfold adu_ok, req_ok; wcbn;
  repeat match goal with
  | A : is_byte ?h, B : is_byte ?l |- _ =>
      lazymatch goal with
      | _ : is_u16 (h * 256 + l) |- _ => fail
      | |- context [h * 256 + l] => pose proof (be_u16 h l A B)
      end
  end; unfold is_u32, is_u16 in *; rewrite ?upd_length; try (unfold is_byte in *; repeat split; auto; lia).
  - assert (bytes_ok (upd (upd (q_data q) 1 z9) 0 z10)) by auto using upd_bytes.
    unfold is_byte in *. repeat split; auto; lia.
  - match goal with E : rd_pairs _ _ _ _ = Some _ |- _ =>
      pose proof (rd_pairs_bytes _ _ _ _ _ _ H7 Hb E); apply rd_pairs_rest in E as (_ & E & _); wcbn_in E end.
    unfold is_byte in *. repeat split; auto; lia.
Qed.

(** What every forwarded request satisfies. *)
Definition fwd_ok (q : adu_req) : Prop :=
  q_addr q <= 247 /\ In (q_func q) [1; 2; 3; 4; 5; 6; 16] /\ is_u16 (q_tid q).

Lemma decode_into_addr buf q q' r : bytes_ok buf -> decode_into buf q = IOk q' r -> fwd_ok q'.
Proof.
  intros Hb H. unfold bytes_ok in Hb. unfold decode_into, irdBe, ird in H.
  repeat match type of H with
  | context [match ?b with [] => _ | _ :: _ => _ end] => destruct b; [discriminate H|]
  | context [if ?c then _ else _] => destruct c eqn:? in H; try discriminate H
  | context [match rd_pairs ?k ?i ?d ?r with _ => _ end] => destruct (rd_pairs k i d r) as [[? ?]|] eqn:?; try discriminate H
  end; injection H as <- <-; unfold fwd_ok; wcbn;
  repeat match type of Hb with Forall _ (_ :: _) => apply Forall_cons_iff in Hb as [? Hb] end;
  (split; [unfold maxAddr in *; lia|]); (split; [|apply be_u16; auto]);
  unfold is_read_bits, is_read_regs, is_single, is_multi, readCoilStatus, readDiscreteInputs, readHoldingRegisters, readInputRegisters,
    forceSingleCoil, presetSingleRegister, presetMultipleRegisters in *; cbn [In]; lia.
Qed.

(** * Session steps *)

Definition about (uid : Z) (o : sout) : Prop :=
  match o with
  | TReq u _ _ _ _ _ _ _ | TTx u _ | TArm u _ | TDisarm u | TFree u => u = uid
  | TThrow => True
  end.

(** The record kept by a session agrees with the observer's notes. *)
Record SOK (uid : Z) (s : sess) (w : view) : Prop := {
  so_buf : length (x_buf s) = 512%nat;
  so_bytes : bytes_ok (x_buf s);
  so_len : 0 <= x_len s <= 512 /\ (x_st s = SConn -> x_len s <= 260);
  so_pos : x_pos s = 0%nat \/ (6 <= x_len s /\ aduPktLen (x_buf s) + 6 <= x_len s);
  so_adu : adu_ok (x_adu s);
  so_st : match x_st s with
          | SInit => w_armed w = None /\ (x_timer s = None \/ x_timer s = Some None) /\
                     (x_link s = None \/ x_link s = Some false) /\ w_starts w = w_frees w
          | SConn => w_armed w = Some inactiveTimeout /\ x_timer s = Some (Some inactiveTimeout) /\
                     (exists fd, x_link s = Some fd) /\ w_starts w = S (w_frees w)
          | SWait => w_armed w = Some aduRspTimeout /\ x_timer s = Some (Some aduRspTimeout) /\
                     (exists fd, x_link s = Some fd) /\ w_starts w = S (w_frees w)
          end;
  so_rx : x_st s <> SInit -> x_len s <= Z.of_nat (length (w_rx w)) /\
            (x_len s <= 260 -> w_rx w = firstn (Z.to_nat (x_len s)) (x_buf s));
  so_last : forall os o, w_last w = Some os -> In o os ->
              match o with TReq _ _ _ _ _ _ _ _ => o = req_msg uid (x_adu s) /\ fwd_ok (x_adu s) | _ => True end
}.

(** What receive() does, whatever it returns. *)
Record RCV (uid : Z) (s : sess) (rx : list Z) (r : lrx) (s1 : sess) (o : list sout) (res : sres) : Prop := {
  rc_st : x_st s1 = x_st s; rc_timer : x_timer s1 = x_timer s; rc_link : x_link s1 = x_link s;
  rc_buf : length (x_buf s1) = 512%nat;
  rc_bytes : bytes_ok (x_buf s1);
  rc_len : 0 <= x_len s1 <= 512 /\ (res = SrNoerror -> x_len s1 <= 260);
  rc_pos : x_pos s1 = 0%nat \/ (6 <= x_len s1 /\ aduPktLen (x_buf s1) + 6 <= x_len s1);
  rc_adu : adu_ok (x_adu s1);
  rc_rx : x_len s1 <= Z.of_nat (length (rx ++ match r with RxBytes bs => bs | _ => [] end)) /\
    (x_len s1 <= 260 -> firstn (Z.to_nat (x_len s1)) (x_buf s1) = rx ++ match r with RxBytes bs => bs | _ => [] end);
  rc_out : (o = [] \/ (o = [req_msg uid (x_adu s1)] /\ res = SrDone /\ fwd_ok (x_adu s1)))
}.

Lemma complete_hdr b len : frame_check b len = FrComplete -> 6 <= len /\ aduPktLen b + 6 = len /\ len < 260.
Proof.
  intros H. pose proof (complete_valid _ _ H) as V. unfold isAduValid, aduHdrLen, maxAduLen in V.
  unfold frame_check, isAduHdrReceived, aduHdrLen in H.
  destruct (Z.leb_spec 6 len); cbn [negb] in H; [|discriminate]. lia.
Qed.

Lemma skipn_bytes n l : bytes_ok l -> bytes_ok (skipn n l).
Proof.
  intros H. apply Forall_forall. intros x Hx. eapply Forall_forall in H; eauto.
  rewrite <- (firstn_skipn n). apply in_or_app; auto.
Qed.

Ltac scbn := cbn [y_st y_timer y_link y_buf y_adu x_st x_timer x_link x_buf x_pos x_len x_adu].
Ltac scbn_in H := cbn [y_st y_timer y_link y_buf y_adu x_st x_timer x_link x_buf x_pos x_len x_adu] in H.

Lemma receive_rcv uid s w r s1 o res : SOK uid s w -> x_st s <> SInit -> x_link s = Some true ->
  vev_ok (VData uid r) -> s_receive uid s r = Some (s1, o, res) -> RCV uid s (w_rx w) r s1 o res.
Proof.
  intros [Hb Hby [Hl Hlc] Hp Ha _ Hrx _] Hst Hk Hev H. unfold s_receive, maxAduLen in H.
  destruct (Hrx Hst) as [Hrl Hrx']. clear Hrx. rename Hrx' into Hrx.
  destruct (Z.ltb_spec 260 (x_len s)) as [H260|H260].
  { apply some3 in H as (<- & <- & <-). constructor; auto.
    - split; [auto|discriminate]. - rewrite app_length. split; lia. }
  rewrite Hk in H. specialize (Hrx H260).
  destruct r as [| |bs].
  { apply some3 in H as (<- & <- & _). constructor; auto. rewrite app_nil_r. split; [auto|now intros]. }
  { apply some3 in H as (<- & <- & _). constructor; auto. rewrite app_nil_r. split; [auto|now intros]. }
  cbn in Hev. unfold bufMaxLen in H.
  set (bs' := firstn (Z.to_nat (512 - x_len s)) bs) in *.
  assert (Hbs' : (length bs' <= Z.to_nat (512 - x_len s))%nat) by (unfold bs'; rewrite firstn_length; lia).
  set (b := buf_write (x_buf s) (Z.to_nat (x_len s)) bs') in *.
  assert (Hbl : length b = 512%nat) by (unfold b; rewrite bw_length; lia).
  assert (Hbb : bytes_ok b) by (apply bw_bytes; [auto|apply firstn_bytes; auto]).
  assert (Hpk : 6 <= x_len s -> aduPktLen b = aduPktLen (x_buf s)) by (intros; unfold b; apply bw_pkt; lia).
  assert (Hrx1 : x_len s + Z.of_nat (length bs') <= Z.of_nat (length (w_rx w ++ bs))).
  { rewrite app_length. assert (length bs' <= length bs)%nat by (unfold bs'; rewrite firstn_length; lia). lia. }
  assert (Hrx' : x_len s + Z.of_nat (length bs') <= 260 ->
    firstn (Z.to_nat (x_len s + Z.of_nat (length bs'))) b = w_rx w ++ bs).
  { intros Hle. replace (Z.to_nat (x_len s + Z.of_nat (length bs'))) with (Z.to_nat (x_len s) + length bs')%nat by lia.
    unfold b. rewrite bw_prefix by lia. rewrite Hrx. f_equal. unfold bs'. apply firstn_all2.
    assert (X := firstn_length (Z.to_nat (512 - x_len s)) bs). fold bs' in X. lia. }
  assert (Hp' : x_pos s = 0%nat \/ (6 <= x_len s + Z.of_nat (length bs') /\ aduPktLen b + 6 <= x_len s + Z.of_nat (length bs'))).
  { destruct Hp as [Hp|[Hp1 Hp2]]; [now left|right]. rewrite Hpk by lia. lia. }
  destruct (frame_check b (x_len s + Z.of_nat (length bs'))) eqn:Efc in H;
    try (apply some3 in H as (<- & <- & <-); constructor; scbn; auto; split; auto; [lia|discriminate]).
  { assert (Hw : x_len s + Z.of_nat (length bs') <= 260).
    { unfold frame_check, isAduHdrReceived, isAduDataLenValid, isAduReceived, aduHdrLen, maxAduLen in Efc.
      destruct (Z.leb_spec 6 (x_len s + Z.of_nat (length bs'))); cbn [negb] in Efc; [|lia].
      destruct (Z.ltb_spec (aduPktLen b + 6) 260); cbn [negb] in Efc; [|discriminate].
      destruct (Z.leb_spec (aduPktLen b) (x_len s + Z.of_nat (length bs'))); cbn [negb] in Efc; [|lia].
      destruct (isAduValid b (x_len s + Z.of_nat (length bs'))); discriminate. }
    apply some3 in H as (<- & <- & <-); constructor; scbn; auto; split; auto; lia. }
  pose proof (complete_hdr _ _ Efc) as (Hc1 & Hc2 & Hc3).
  pose proof (decode_into_ok (skipn (x_pos s) b) (x_adu s)) as Hd.
  destruct (decode_into (skipn (x_pos s) b) (x_adu s)) as [q rest|q rest|] eqn:Ed in H, Hd; [| |discriminate H].
  - specialize (Hd q (skipn_bytes _ _ Hbb) Ha eq_refl).
    destruct (negb (q_nbytes q <=? Z.of_nat (length (q_data q)))) in H; [discriminate H|].
    apply decode_into_addr in Ed; [|now apply skipn_bytes]. apply some3 in H as (<- & <- & <-). constructor; scbn; auto; first [lia|split; auto; first [discriminate|lia]].
  - specialize (Hd q (skipn_bytes _ _ Hbb) Ha eq_refl).
    apply some3 in H as (<- & <- & <-). constructor; scbn; auto; first [lia|split; auto; first [discriminate|lia]].
Qed.

Lemma receive_defined_s uid s w r : SOK uid s w -> x_st s <> SInit -> x_link s = Some true ->
  vev_ok (VData uid r) -> r <> RxBytes [] -> exists x, s_receive uid s r = Some x.
Proof.
  intros [Hb Hby [Hl _] Hp Ha _ _ _] Hst Hk Hev Hne. unfold s_receive, maxAduLen.
  destruct (Z.ltb_spec 260 (x_len s)) as [H260|H260]; [eauto|]. rewrite Hk.
  destruct r as [| |bs]; [eauto|eauto|]. cbn in Hev. unfold bufMaxLen.
  set (bs' := firstn (Z.to_nat (512 - x_len s)) bs) in *.
  assert (Hbs' : (length bs' <= Z.to_nat (512 - x_len s))%nat) by (unfold bs'; rewrite firstn_length; lia).
  assert (Hbs1 : (0 < length bs')%nat).
  { unfold bs'. rewrite firstn_length. destruct bs; [congruence|]. cbn [length]. lia. }
  set (b := buf_write (x_buf s) (Z.to_nat (x_len s)) bs') in *.
  assert (Hbl : length b = 512%nat) by (unfold b; rewrite bw_length; lia).
  assert (Hbb : bytes_ok b) by (apply bw_bytes; [auto|apply firstn_bytes; auto]).
  assert (Hpk : 6 <= x_len s -> aduPktLen b = aduPktLen (x_buf s)) by (intros; unfold b; apply bw_pkt; lia).
  destruct (frame_check b (x_len s + Z.of_nat (length bs'))) eqn:Efc; try (eexists; reflexivity).
  pose proof (complete_hdr _ _ Efc) as (Hc1 & Hc2 & Hc3).
  assert (Hpos : x_pos s = 0%nat) by (destruct Hp as [Hp|[Hp1 Hp2]]; [auto|rewrite Hpk in Hc2 by lia; lia]).
  rewrite Hpos. cbn [skipn].
  pose proof (decode_req_safe b (x_adu s) Hbb Hbl) as Hs. pose proof (decode_into_ok b (x_adu s)) as Hd.
  destruct Ha as (Ha1 & Ha2 & Ha3). rewrite decode_into_erase in Hs.
  destruct (decode_into b (x_adu s)) as [q rest|q rest|] eqn:Ed; [|eexists; reflexivity|exfalso; apply Hs; [lia|reflexivity]].
  assert (Hq : q_nbytes q <= Z.of_nat (length (q_data q)))
    by (apply (Hd q Hbb); [split; auto|reflexivity]).
  destruct (Z.leb_spec (q_nbytes q) (Z.of_nat (length (q_data q)))); [|lia]. eexists; reflexivity.
Qed.

(** * Transitions *)

Lemma tr_free uid s t : x_st s <> SInit -> x_timer s = Some t ->
  s_transit uid s SInit =
  Some (mkSess SInit None None (x_buf s) (x_pos s) (x_len s) (x_adu s), [TDisarm uid; TFree uid]).
Proof.
  intros H Ht. unfold s_transit, s_exit, s_disarm, s_enter. destruct (x_st s) eqn:E; [congruence| |];
  cbn [sst_eqb]; rewrite Ht; scbn; reflexivity.
Qed.
Lemma tr_wait uid s t : x_st s = SConn -> x_timer s = Some t ->
  s_transit uid s SWait =
  Some (mkSess SWait (Some (Some aduRspTimeout)) (x_link s) (x_buf s) (x_pos s) (x_len s) (x_adu s),
        [TDisarm uid; TArm uid aduRspTimeout]).
Proof.
  intros E Ht. unfold s_transit, s_exit, s_disarm, s_enter, s_arm. rewrite E.
  cbn [sst_eqb]. rewrite Ht. scbn. reflexivity.
Qed.
Lemma tr_conn uid s t : x_st s = SWait -> x_timer s = Some t ->
  s_transit uid s SConn =
  Some (mkSess SConn (Some (Some inactiveTimeout)) (x_link s) (x_buf s) 0 0 (x_adu s),
        [TDisarm uid; TArm uid inactiveTimeout]).
Proof.
  intros E Ht. unfold s_transit, s_exit, s_disarm, s_enter, s_arm. rewrite E.
  cbn [sst_eqb]. rewrite Ht. scbn. reflexivity.
Qed.
Lemma tr_start uid s t : x_st s = SInit -> x_timer s = Some t ->
  s_start uid s =
  Some (mkSess SConn (Some (Some inactiveTimeout)) (x_link s) (x_buf s) 0 0 (x_adu s),
        [TArm uid inactiveTimeout]).
Proof.
  intros E Ht. unfold s_start, s_transit, s_exit, s_disarm, s_enter, s_arm. rewrite E.
  cbn [sst_eqb]. scbn. rewrite Ht. scbn. reflexivity.
Qed.

(** Effects of one handler call on session [uid]: they concern only this
    session, nothing is thrown, and the id is released exactly when the session
    becomes idle. *)
Definition is_free_any (o : sout) : bool := match o with TFree _ => true | _ => false end.
Record quietly (uid : Z) (s s' : sess) (os : list sout) : Prop := {
  qu_about : Forall (about uid) os;
  qu_throw : count (fun o => match o with TThrow => true | _ => false end) os = 0%nat;
  qu_free : filter is_free_any os = if sst_eqb (x_st s') SInit && negb (sst_eqb (x_st s) SInit) then [TFree uid] else [];
  qu_idle : x_st s = SInit -> x_st s' = SInit
}.

Ltac vsimp uid := unfold view_next, count; cbn [app filter fold_left arm_next is_arm is_free is_ready existsb length orb andb req_msg
   w_armed w_starts w_frees w_rx w_last]; rewrite ?Z.eqb_refl; cbn [filter length andb orb].

Ltac slen := try match goal with |- 0 <= _ <= 512 /\ (_ -> _) =>
  split; [lia|first [lia|discriminate|congruence|auto]] end.

Lemma msg_cases uid q (o : list sout) (P : Prop) : (o = [] \/ (o = [req_msg uid q] /\ P /\ fwd_ok q)) ->
  filter is_free_any o = [] /\ filter (is_free uid) o = [] /\ filter (is_arm uid) o = [] /\ existsb (is_ready uid) o = false /\
  (forall a, fold_left (arm_next uid) o a = a) /\ Forall (about uid) o /\
  filter (fun o => match o with TThrow => true | _ => false end) o = [] /\
  (forall x, In x o -> match x with TReq _ _ _ _ _ _ _ _ => x = req_msg uid q /\ fwd_ok q | _ => True end).
Proof.
  intros [->|(-> & _ & Ha)]; repeat split; auto; try constructor; try constructor; try easy.
  intros x [<-|[]]. now split.
Qed.

Lemma last_app uid q (o : list sout) l : 
  (forall x, In x o -> match x with TReq _ _ _ _ _ _ _ _ => x = req_msg uid q /\ fwd_ok q | _ => True end) ->
  (forall x, In x l -> match x with TReq _ _ _ _ _ _ _ _ => False | _ => True end) ->
  forall os x, Some (o ++ l) = Some os -> In x os -> match x with TReq _ _ _ _ _ _ _ _ => x = req_msg uid q /\ fwd_ok q | _ => True end.
Proof.
  intros H1 H2 os x E. injection E as <-. intros Hx. apply in_app_or in Hx as [Hx|Hx].
  - now apply H1. - apply H2 in Hx. now destruct x.
Qed.

Lemma data_ok uid s w r s' os : SOK uid s w -> x_link s = Some true -> vev_ok (VData uid r) ->
  s_data uid s r = Some (s', os) -> SOK uid s' (view_next uid w (VData uid r, os)) /\ quietly uid s s' os.
Proof.
  intros HS Hk Hev H. unfold s_data in H.
  destruct (x_st s) eqn:Est.
  - exfalso. pose proof (so_st _ _ _ HS) as X. rewrite Est in X. destruct X as (_ & _ & [X|X] & _); congruence.
  - assert (Hni : x_st s <> SInit) by congruence.
    destruct (s_receive uid s r) as [[[s1 o] res]|] eqn:Er in H; [|discriminate H].
    destruct (receive_rcv _ _ _ _ _ _ _ HS Hni Hk Hev Er) as [A1 A2 A3 A4 A5 [A6 A6'] A7 A8 A9 A10].
    pose proof (msg_cases _ _ _ _ A10) as (M0 & M1 & M2 & M3 & M4 & M5 & M6 & M7).
    pose proof (so_st _ _ _ HS) as X. rewrite Est in X. destruct X as (X1 & X2 & X3 & X4).
    assert (A2' : x_timer s1 = Some (Some inactiveTimeout)) by congruence.
    assert (Hrx9 : x_len s1 <= Z.of_nat (length (match r with RxBytes bs => w_rx w ++ bs | _ => w_rx w end)) /\
      (x_len s1 <= 260 -> match r with RxBytes bs => w_rx w ++ bs | _ => w_rx w end = firstn (Z.to_nat (x_len s1)) (x_buf s1))).
    { destruct A9 as [A9' A9]. split; [destruct r; rewrite ?app_nil_r in A9'; auto|].
      intros L. rewrite A9 by auto. destruct r; rewrite ?app_nil_r; auto. }
    assert (Hr9 : (match r with RxBytes bs => if uid =? uid then w_rx w ++ bs else w_rx w | _ => w_rx w end) =
      match r with RxBytes bs => w_rx w ++ bs | _ => w_rx w end) by (rewrite Z.eqb_refl; reflexivity).
    destruct res; cbn [s_then] in H.
    + apply some2 in H as (<- & <-). split.
      * constructor; vsimp uid; auto; rewrite ?A1, ?A3, ?Est; rewrite ?M1, ?M2, ?M3, ?M4; cbn [length]; rewrite ?Nat.add_0_r; auto; slen.
        intros os x E. injection E as <-. apply M7.
      * constructor; auto; unfold count; rewrite ?M6, ?M0, ?A1, ?Est; auto.
    + rewrite (tr_wait uid s1 _ (eq_trans A1 Est) A2') in H. apply some2 in H as (<- & <-). split.
      * constructor; unfold view_next, count; scbn; cbn [w_armed w_starts w_frees w_rx w_last]; auto;
        rewrite ?filter_app, ?existsb_app, ?fold_left_app, ?M1, ?M2, ?M3, ?M4; vsimp uid; slen.
        -- rewrite ?Nat.add_0_r, ?A3. auto.
        -- intros _. rewrite ?Hr9. auto.
        -- apply last_app; auto. intros x [<-|[<-|[]]]; auto.
      * constructor; unfold count; rewrite ?filter_app, ?M6, ?M0, ?A1, ?Est; auto.
        -- apply Forall_app; split; auto. repeat constructor.
        -- discriminate.
    + rewrite (tr_free uid s1 _ ltac:(congruence) A2') in H. apply some2 in H as (<- & <-). split.
      * constructor; unfold view_next, count; scbn; cbn [w_armed w_starts w_frees w_rx w_last]; auto;
        rewrite ?filter_app, ?existsb_app, ?fold_left_app, ?M1, ?M2, ?M3, ?M4; vsimp uid; slen.
        -- rewrite ?Nat.add_0_r. repeat split; auto. lia.
        -- congruence.
        -- apply last_app; auto. intros x [<-|[<-|[]]]; auto.
      * constructor; unfold count; rewrite ?filter_app, ?M6, ?M0, ?A1, ?Est; auto.
        apply Forall_app; split; auto. repeat constructor.
  - assert (Hni : x_st s <> SInit) by congruence.
    destruct (s_receive uid s r) as [[[s1 o] res]|] eqn:Er in H; [|discriminate H].
    destruct (receive_rcv _ _ _ _ _ _ _ HS Hni Hk Hev Er) as [A1 A2 A3 A4 A5 [A6 A6'] A7 A8 A9 A10].
    pose proof (msg_cases _ _ _ _ A10) as (M0 & M1 & M2 & M3 & M4 & M5 & M6 & M7).
    pose proof (so_st _ _ _ HS) as X. rewrite Est in X. destruct X as (X1 & X2 & X3 & X4).
    assert (A2' : x_timer s1 = Some (Some aduRspTimeout)) by congruence.
    assert (Hrx9 : x_len s1 <= Z.of_nat (length (match r with RxBytes bs => w_rx w ++ bs | _ => w_rx w end)) /\
      (x_len s1 <= 260 -> match r with RxBytes bs => w_rx w ++ bs | _ => w_rx w end = firstn (Z.to_nat (x_len s1)) (x_buf s1))).
    { destruct A9 as [A9' A9]. split; [destruct r; rewrite ?app_nil_r in A9'; auto|].
      intros L. rewrite A9 by auto. destruct r; rewrite ?app_nil_r; auto. }
    assert (Hr9 : (match r with RxBytes bs => if uid =? uid then w_rx w ++ bs else w_rx w | _ => w_rx w end) =
      match r with RxBytes bs => w_rx w ++ bs | _ => w_rx w end) by (rewrite Z.eqb_refl; reflexivity).
    assert (Hstay : forall o', o' = o -> SOK uid s1 (view_next uid w (VData uid r, o')) /\ quietly uid s s1 o').
    { intros o' ->. split.
      * constructor; vsimp uid; auto; rewrite ?A1, ?A3, ?Est; rewrite ?M1, ?M2, ?M3, ?M4; cbn [length]; rewrite ?Nat.add_0_r; auto; slen.
        intros os' x E. injection E as <-. apply M7.
      * constructor; auto; unfold count; rewrite ?M6, ?M0, ?A1, ?Est; auto. }
    destruct res; cbn [s_then] in H.
    + apply some2 in H as (<- & <-). now apply Hstay.
    + apply some2 in H as (<- & <-). now apply Hstay.
    + rewrite (tr_free uid s1 _ ltac:(congruence) A2') in H. apply some2 in H as (<- & <-). split.
      * constructor; unfold view_next, count; scbn; cbn [w_armed w_starts w_frees w_rx w_last]; auto;
        rewrite ?filter_app, ?existsb_app, ?fold_left_app, ?M1, ?M2, ?M3, ?M4; vsimp uid; slen.
        -- rewrite ?Nat.add_0_r. repeat split; auto. lia.
        -- congruence.
        -- apply last_app; auto. intros x [<-|[<-|[]]]; auto.
      * constructor; unfold count; rewrite ?filter_app, ?M6, ?M0, ?A1, ?Est; auto.
        apply Forall_app; split; auto. repeat constructor.
Qed.

(** The octets of a reply frame that [s_send] hands to the encoder. *)
Definition reply_adu (q : adu_req) (p : areply) : adu_rsp :=
  let d := firstn (Z.to_nat (p_nbytes p)) (p_data p) in
  mkRsp (p_tid p) (if negb (p_error p =? 0) then modbusErrorFn else q_func q) (q_addr q)
        (p_error p) (q_start q) (q_nitems q) (p_nbytes p)
        (d ++ repeat 0 (Z.to_nat maxAduLen - length d)).

Lemma send_spec uid s p sok s1 o res : s_send uid s p sok = Some (s1, o, res) ->
  s1 = s /\ res <> SrNoerror /\
  (o = [] \/ (exists bs, o = [TTx uid bs] /\ res = SrDone /\ p_ok p = true /\ p_tid p = q_tid (x_adu s) /\
     p_nbytes p <= 260 /\ encode_rsp (reply_adu (x_adu s) p) = EncOk bs)).
Proof.
  intros H. unfold s_send in H.
  destruct (Z.eqb_spec (p_tid p) (q_tid (x_adu s))) as [Et|]; cbn [negb] in H;
    [|apply some3 in H as (<- & <- & <-); repeat split; auto; discriminate].
  destruct (p_ok p) eqn:Eok; cbn [negb] in H; [|apply some3 in H as (<- & <- & <-); repeat split; auto; discriminate].
  destruct (negb (p_nbytes p <=? Z.of_nat (length (p_data p)))); [discriminate H|].
  destruct (Z.ltb_spec maxAduLen (p_nbytes p)) as [|Hle]; [discriminate H|].
  fold (reply_adu (x_adu s) p) in H.
  destruct (encode_rsp (reply_adu (x_adu s) p)) as [bs|bs| |] eqn:Ee in H; try discriminate H.
  2:{ apply some3 in H as (<- & <- & <-); repeat split; auto; discriminate. }
  destruct (negb (isAduValid bs (Z.of_nat (length bs)))); [apply some3 in H as (<- & <- & <-); repeat split; auto; discriminate|].
  destruct (x_link s) as [fd|]; [|discriminate H].
  destruct (fd && sok); apply some3 in H as (<- & <- & <-); split; auto; (split; [discriminate|]); auto.
  right. exists bs. unfold maxAduLen in Hle. repeat split; auto.
Qed.

Lemma tx_cases uid (o : list sout) : (o = [] \/ exists bs, o = [TTx uid bs]) ->
  filter is_free_any o = [] /\ filter (is_free uid) o = [] /\ existsb (is_ready uid) o = false /\
  (forall a, fold_left (arm_next uid) o a = a) /\ Forall (about uid) o /\
  filter (fun o => match o with TThrow => true | _ => false end) o = [].
Proof. intros [->|[bs ->]]; repeat split; auto; repeat constructor. Qed.

Lemma reply_step_ok uid s w p sok s' os : SOK uid s w ->
  s_reply uid s p sok = Some (s', os) -> SOK uid s' (view_next uid w (VReply p sok, os)) /\ quietly uid s s' os.
Proof.
  intros HS H. pose proof HS as [B1 B2 [B3 B3'] B4 B5 B6 B7 B8]. unfold s_reply in H.
  assert (Hnop : x_st s <> SWait -> Some (s, @nil sout) = Some (s', os) ->
    SOK uid s' (view_next uid w (VReply p sok, os)) /\ quietly uid s s' os).
  { intros _ E. apply some2 in E as (<- & <-). split.
    - constructor; vsimp uid; rewrite ?Nat.add_0_r; auto.
    - constructor; auto. rewrite andb_negb_r. reflexivity. }
  destruct (x_st s) eqn:Est; [apply Hnop; congruence|apply Hnop; congruence|].
  destruct (s_send uid s p sok) as [[[s1 o] res]|] eqn:Er in H; [|discriminate H].
  apply send_spec in Er as (-> & Hres & Ho).
  assert (Ho' : o = [] \/ exists bs, o = [TTx uid bs]) by (destruct Ho as [Ho|(bs & Ho & _)]; eauto).
  pose proof (tx_cases _ _ Ho') as (M0 & M1 & M3 & M4 & M5 & M6).
  destruct B6 as (X1 & X2 & X3 & X4).
  destruct res; [congruence| |]; cbn [s_then] in H.
  - rewrite (tr_conn uid s _ Est X2) in H. apply some2 in H as (<- & <-). split.
    + constructor; unfold view_next, count; scbn; cbn [w_armed w_starts w_frees w_rx w_last]; auto;
      rewrite ?filter_app, ?existsb_app, ?fold_left_app, ?M1, ?M3, ?M4; vsimp uid; rewrite ?Nat.add_0_r; auto.
      all: slen; try lia.
      all: intros _; split; [cbn; lia|reflexivity].
    + constructor; unfold count; rewrite ?filter_app, ?M6, ?M0, ?Est; auto.
      apply Forall_app; split; auto. repeat constructor. discriminate.
  - rewrite (tr_free uid s _ ltac:(congruence) X2) in H. apply some2 in H as (<- & <-). split.
    + constructor; unfold view_next, count; scbn; cbn [w_armed w_starts w_frees w_rx w_last]; auto;
      rewrite ?filter_app, ?existsb_app, ?fold_left_app, ?M1, ?M3, ?M4; vsimp uid; rewrite ?Nat.add_0_r; auto.
      all: slen; try congruence; try (repeat split; auto; lia).
    + constructor; unfold count; rewrite ?filter_app, ?M6, ?M0, ?Est; auto.
      apply Forall_app; split; auto. repeat constructor.
Qed.

Lemma timer_step_ok uid s w s' os : SOK uid s w -> (exists t, x_timer s = Some (Some t)) ->
  s_timer uid s = Some (s', os) -> SOK uid s' (view_next uid w (VTimer uid, os)) /\ quietly uid s s' os.
Proof.
  intros HS [t Ht] H. pose proof HS as [B1 B2 [B3 B3'] B4 B5 B6 B7 B8]. unfold s_timer in H. rewrite Ht in H. scbn_in H.
  destruct (x_st s) eqn:Est.
  - destruct B6 as (_ & [B6|B6] & _); congruence.
  - destruct B6 as (X1 & X2 & X3 & X4).
    rewrite (tr_free uid _ None) in H; [|scbn; congruence|reflexivity].
    scbn_in H. apply some2 in H as (<- & <-). split.
    + constructor; vsimp uid; scbn; auto.
      all: slen; try congruence; try (repeat split; auto; lia).
    + constructor; unfold count; scbn; rewrite ?Est; auto. repeat constructor.
  - destruct B6 as (X1 & X2 & X3 & X4).
    rewrite (tr_conn uid _ None) in H; [|scbn; auto|reflexivity].
    scbn_in H. apply some2 in H as (<- & <-). split.
    + constructor; vsimp uid; scbn; auto.
      all: rewrite ?Nat.add_0_r; auto; slen; first [lia|intros _; split; [cbn; lia|reflexivity]].
    + constructor; unfold count; scbn; rewrite ?Est; auto. repeat constructor. discriminate.
Qed.

Lemma error_step_ok uid s w : SOK uid s w ->
  SOK uid (s_error s) (view_next uid w (VError uid, [])) /\ quietly uid s (s_error s) [].
Proof.
  intros HS. pose proof HS as [B1 B2 [B3 B3'] B4 B5 B6 B7 B8]. unfold s_error. split.
  - constructor; vsimp uid; scbn; rewrite ?Nat.add_0_r; auto.
    destruct (x_st s).
    + destruct B6 as (X1 & X2 & X3 & X4). destruct X3 as [->| ->]; auto.
    + destruct B6 as (X1 & X2 & (fd & ->) & X4). eauto 6.
    + destruct B6 as (X1 & X2 & (fd & ->) & X4). eauto 6.
  - constructor; auto; scbn; auto. rewrite andb_negb_r. reflexivity.
Qed.

(** Accepting a connection on an idle session: it is started, or an exception
    is thrown and the session stays idle. *)
Lemma prepare_ok uid s w tok lok aok s' os : SOK uid s w -> x_st s = SInit ->
  s_prepare uid s tok lok aok = Some (s', os) ->
  SOK uid s' (view_next uid w (VAccept tok lok aok, os)) /\
  ((tok && lok && aok = true /\ x_st s' = SConn /\ x_link s' = Some true /\ os = [TArm uid inactiveTimeout]) \/
   (tok && lok && aok = false /\ x_st s' = SInit /\ os = [TThrow])).
Proof.
  intros HS Est H. pose proof HS as [B1 B2 [B3 B3'] B4 B5 B6 B7 B8]. rewrite Est in B6. destruct B6 as (X1 & X2 & X3 & X4).
  unfold s_prepare in H.
  destruct tok; cbn [negb] in H.
  2:{ apply some2 in H as (<- & <-). split; [|right; auto].
      constructor; vsimp uid; rewrite ?Nat.add_0_r, ?Est; auto; slen; congruence. }
  destruct lok; cbn [negb] in H.
  2:{ apply some2 in H as (<- & <-). split; [|right; auto].
      constructor; vsimp uid; scbn; rewrite ?Nat.add_0_r, ?Est; auto; slen; congruence. }
  destruct aok; cbn [negb] in H.
  2:{ apply some2 in H as (<- & <-). split; [|right; auto].
      constructor; vsimp uid; scbn; rewrite ?Nat.add_0_r, ?Est; auto; slen; congruence. }
  rewrite (tr_start uid _ None) in H; [|scbn; auto|reflexivity]. scbn_in H.
  apply some2 in H as (<- & <-). split; [|left; auto].
  constructor; vsimp uid; scbn; rewrite ?Nat.add_0_r; auto; try lia.
  - repeat split; eauto; lia.
  - intros _. split; [cbn; lia|reflexivity].
Qed.

(** Effects on one session leave the notes about the others alone. *)
Definition target (e : vev) : option Z :=
  match e with
  | VData u _ | VError u | VTimer u => Some u
  | VReply p _ => Some (p_session p)
  | VAccept _ _ _ | VStop => None
  end.

Lemma other_outs uid u os : Forall (about u) os -> u <> uid ->
  filter (is_arm uid) os = [] /\ filter (is_free uid) os = [] /\ existsb (is_ready uid) os = false /\
  forall a, fold_left (arm_next uid) os a = a.
Proof.
  intros H Hne. assert (Hb : (u =? uid) = false) by lia.
  induction H as [|o os Ho _ (I1 & I2 & I3 & I4)]; [repeat split; auto|].
  destruct o; cbn in Ho; subst; cbn; rewrite ?Hb; cbn; auto.
Qed.

Lemma view_other uid w e os u : Forall (about u) os -> u <> uid ->
  match target e with Some t => t = u | None => True end -> view_next uid w (e, os) = w.
Proof.
  intros H Hne Ht. destruct (other_outs uid u os H Hne) as (I1 & I2 & I3 & I4).
  assert (Hb : (u =? uid) = false) by lia.
  unfold view_next, count. rewrite I1, I2, I3, I4. cbn [length]. rewrite Nat.add_0_r.
  destruct w as [a s f rx l]. cbn [w_armed w_starts w_frees w_rx w_last].
  destruct e; cbn in Ht; subst; rewrite ?Hb, ?Nat.add_0_r; try reflexivity.
  destruct r; reflexivity.
Qed.
