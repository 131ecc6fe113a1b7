(** Proofs about the Modbus client (on the list storage; ModbusStoreProofs carries
    them over to the concrete storage). *)
From Verif Require Import Base MsgStorageModel ModbusCodecModel ModbusCodecSpec ModbusCodecProofs
  ModbusClientModel ModbusClientSpec ModbusStoreProofs.
Local Open Scope Z_scope.

Notation lclient := (client (list item)).

Definition item_ok (it : item) : Prop := req_ok (i_req it) /\ q_nbytes (i_req it) <= 260.

Definition timer_of (s : cst) : option Z :=
  match s with
  | CInit | CConnected => None
  | CConnect => Some connectTimeout
  | CSend => Some sendDelay
  | CReceive => Some receiveTimeout
  | CBackoff => Some backoffTimeout
  end.
Definition may_hold (s : cst) : bool := match s with CSend | CReceive => true | _ => false end.
Definition no_fd (s : cst) : bool := match s with CInit | CBackoff => true | _ => false end.

Record CI (d : lclient) (w : option (list Z)) : Prop := mkCI {
  ci_buf : length (c_buf d) = 512%nat;
  ci_bytes : bytes_ok (c_buf d);
  ci_len : 0 <= c_len d <= 512;
  ci_store : (length (c_store d) <= 64)%nat;
  ci_items : Forall item_ok (c_store d);
  ci_idle : may_hold (c_st d) = false -> c_store d = [];
  ci_timer : c_timer d = timer_of (c_st d);
  ci_fd : no_fd (c_st d) = true -> c_fd d = false;
  ci_wire : match w with
            | None => c_st d <> CReceive
            | Some rx => c_st d = CReceive /\ c_store d <> [] /\ c_pos d = 0%nat /\ c_len d <= 260 /\
                         firstn (Z.to_nat (c_len d)) (c_buf d) = rx
            end
}.

(** * Building blocks on lists *)
Lemma flush_list : forall l k, (length l <= k)%nat ->
  flush ls_empty ls_front ls_pop k l = Some ([], map error_for l).
Proof.
  induction l as [|x l IH]; intros [|k] H; cbn in H |- *; auto; [lia|].
  rewrite IH by lia. reflexivity.
Qed.

Definition stops (s : cst) : list cout := match s with CInit | CConnected => [] | _ => [OStop] end.

Lemma fail_all_list (d : lclient) : (length (c_store d) <= 64)%nat -> c_st d <> CBackoff ->
  fail_all ls_empty ls_front ls_pop d =
  Some (mkC CBackoff false (Some backoffTimeout) [] (c_buf d) (c_pos d) (c_len d),
        map error_for (c_store d) ++ [OClose] ++ stops (c_st d) ++ [OTimer backoffTimeout]).
Proof.
  intros H Hs. unfold fail_all. rewrite flush_list by (unfold as_capacity; lia).
  unfold close, transit. cbn [set_fd set_store c_st].
  destruct d as [st fd tm s b p l]; cbn [c_st c_store c_buf c_pos c_len] in *.
  destruct st; try congruence; reflexivity.
Qed.

Lemma rsps_app a b : rsps (a ++ b) = rsps a ++ rsps b.
Proof. apply flat_map_app. Qed.
Lemma txs_app a b : txs (a ++ b) = txs a ++ txs b.
Proof. apply flat_map_app. Qed.
Lemma rsps_errors l : rsps (map error_for l) = map ids l.
Proof. induction l; cbn; [auto|]. f_equal. apply IHl. Qed.
Lemma txs_errors l : txs (map error_for l) = [].
Proof. induction l; cbn; auto. Qed.
Lemma rsps_stops s : rsps (stops s) = []. Proof. now destruct s. Qed.
Lemma txs_stops s : txs (stops s) = []. Proof. now destruct s. Qed.

Lemma fail_outs l s r :
  rsps (map error_for l ++ [OClose] ++ stops s ++ [OTimer r]) = map ids l /\
  txs (map error_for l ++ [OClose] ++ stops s ++ [OTimer r]) = [].
Proof.
  rewrite !rsps_app, !txs_app, rsps_errors, txs_errors, rsps_stops, txs_stops. cbn.
  now rewrite app_nil_r.
Qed.

Lemma stored_ok it : req_ok (i_req it) -> q_nbytes (i_req it) <= 260 -> item_ok (stored it).
Proof.
  intros (H1 & H2 & H3 & H4 & H5 & H6 & H7 & H8) Hn. unfold item_ok, stored, req_ok. cbn.
  split; [|auto]. do 6 (split; [auto|]). split.
  - apply Forall_forall. intros x Hx. eapply Forall_forall in H7; eauto. rewrite <- (firstn_skipn (Z.to_nat (q_nbytes (i_req it)))). apply in_or_app. auto.
  - rewrite firstn_length. unfold is_u16 in H6. lia.
Qed.

Lemma bw_length b n bs : (n + length bs <= length b)%nat -> length (buf_write b n bs) = length b.
Proof. intros H. unfold buf_write. rewrite !app_length, firstn_length, skipn_length. lia. Qed.
Lemma bw_bytes b n bs : bytes_ok b -> bytes_ok bs -> bytes_ok (buf_write b n bs).
Proof.
  intros H1 H2. unfold buf_write. apply bytes_app; [|apply bytes_app; auto].
  - apply Forall_forall. intros x Hx. eapply Forall_forall in H1; eauto. rewrite <- (firstn_skipn n). apply in_or_app; auto.
  - apply Forall_forall. intros x Hx. eapply Forall_forall in H1; eauto. rewrite <- (firstn_skipn (n + length bs)). apply in_or_app; auto.
Qed.
Lemma bw_prefix b n bs : (n + length bs <= length b)%nat ->
  firstn (n + length bs) (buf_write b n bs) = firstn n b ++ bs.
Proof.
  intros H. unfold buf_write. rewrite app_assoc, firstn_app.
  replace (n + length bs - length (firstn n b ++ bs))%nat with 0%nat by (rewrite app_length, firstn_length; lia).
  cbn [firstn]. rewrite app_nil_r. apply firstn_all2. rewrite app_length, firstn_length. lia.
Qed.
Lemma firstn_bytes n l : bytes_ok l -> bytes_ok (firstn n l).
Proof.
  intros H. apply Forall_forall. intros x Hx. eapply Forall_forall in H; eauto.
  rewrite <- (firstn_skipn n). apply in_or_app; auto.
Qed.

Lemma nth_firstn_lt {A} (l : list A) n i d : (i < n)%nat -> nth i (firstn n l) d = nth i l d.
Proof. revert n i. induction l; intros [|n] [|i] H; cbn; auto; try lia. apply IHl. lia. Qed.

(** What the framing check says in terms of the octets received so far. *)
Lemma frame_check_rx b len rx : length b = 512%nat -> 0 <= len <= 512 -> firstn (Z.to_nat len) b = rx ->
  frame_check b len =
  if (length rx <? 6)%nat then FrWait
  else if 254 <=? length_field rx then FrBadLength
  else if Z.of_nat (length rx) <? length_field rx then FrWait
  else if negb ((Z.of_nat (length rx) <? 260) && (length_field rx + 6 =? Z.of_nat (length rx))) then FrInvalid
  else FrComplete.
Proof.
  intros Hb Hl Hr. assert (Hlr : Z.of_nat (length rx) = len) by (subst rx; rewrite firstn_length; lia).
  unfold frame_check, isAduHdrReceived, isAduDataLenValid, isAduReceived, isAduValid, aduPktLen, aduHdrLen, maxAduLen.
  rewrite Hlr.
  destruct (Nat.ltb_spec (length rx) 6) as [H6|H6].
  - replace (6 <=? len) with false by lia. reflexivity.
  - replace (6 <=? len) with true by lia. cbn [negb].
    assert (E : nth 4 b 0 * 256 + nth 5 b 0 = length_field rx).
    { unfold length_field. subst rx. now rewrite !nth_firstn_lt by lia. }
    rewrite E.
    destruct (Z.leb_spec 254 (length_field rx)) as [H|H].
    + replace (length_field rx + 6 <? 260) with false by lia. reflexivity.
    + replace (length_field rx + 6 <? 260) with true by lia. cbn [negb].
      destruct (Z.ltb_spec len (length_field rx)) as [H'|H'].
      * replace (length_field rx <=? len) with false by lia. reflexivity.
      * replace (length_field rx <=? len) with true by lia. reflexivity.
Qed.

Ltac csimp := cbn [c_st c_fd c_timer c_store c_buf c_pos c_len set_buf set_st set_fd set_timer set_store].

(** * One receive call *)

Lemma some3 {A B C} (a a' : A) (b b' : B) (c c' : C) : Some (a, b, c) = Some (a', b', c') -> a = a' /\ b = b' /\ c = c'.
Proof. intros E. inversion E. auto. Qed.

(** The buffer after reading [bs] and the octets since [c_len] was 0. *)
Lemma receive_cases (d : lclient) r d1 o1 s : length (c_buf d) = 512%nat -> bytes_ok (c_buf d) -> 0 <= c_len d <= 512 ->
  ev_ok (EData r) ->
  c_receive ls_empty ls_front d r = Some (d1, o1, s) ->
  c_st d1 = c_st d /\ c_fd d1 = c_fd d /\ c_timer d1 = c_timer d /\ c_store d1 = c_store d /\
  length (c_buf d1) = 512%nat /\ bytes_ok (c_buf d1) /\ 0 <= c_len d1 <= 512 /\ txs o1 = [] /\
  (260 < c_len d -> d1 = d /\ o1 = [] /\ s = SDone) /\
  (c_len d <= 260 ->
   match r with
   | RxNa => if c_fd d then d1 = d /\ o1 = [] /\ s = SNoerror else d1 = d /\ o1 = [] /\ s = SError
   | RxErr => d1 = d /\ o1 = [] /\ s = SError
   | RxBytes bs =>
       if c_fd d then
         let rx := firstn 512 (firstn (Z.to_nat (c_len d)) (c_buf d) ++ bs) in
         match c_store d with
         | [] => o1 = [] /\ s = SDone /\ c_len d1 = c_len d /\ c_pos d1 = c_pos d
         | it :: _ =>
             firstn (Z.to_nat (c_len d1)) (c_buf d1) = rx /\
             match frame_check (c_buf d1) (c_len d1) with
             | FrWait => o1 = [] /\ s = SNoerror /\ c_pos d1 = c_pos d
             | FrBadLength => o1 = [] /\ s = SDone /\ c_pos d1 = c_pos d
             | FrInvalid => o1 = [error_for it] /\ s = SDone /\ c_pos d1 = c_pos d
             | FrComplete => s = SDone /\
                 (o1 = [error_for it] \/
                  exists a rest, decode_rsp (skipn (c_pos d) (c_buf d1)) rsp0 = DOk a rest /\
                    a_tid a = q_tid (i_req it) /\ a_addr a = q_addr (i_req it) /\
                    ((a_func a = 143 /\ o1 = [ORsp (i_client it) (q_tid (i_req it)) true (a_error a) []]) \/
                     (a_func a <> 143 /\ a_func a = q_func (i_req it) /\
                      o1 = [ORsp (i_client it) (q_tid (i_req it)) true 0 (firstn (Z.to_nat (a_nbytes a)) (a_data a))])))
             end
         end
       else d1 = d /\ o1 = [] /\ s = SError
   end).
Proof.
  intros Hb Hby Hl Hev. unfold c_receive, maxAduLen.
  destruct (Z.ltb_spec 260 (c_len d)) as [H260|H260].
  { intros E. apply some3 in E as (<- & <- & <-). do 9 (split; [auto; lia|]). lia. }
  assert (Hskip : forall s0 o0, Some (d, o0, s0) = Some (d1, o1, s) -> d1 = d /\ o1 = o0 /\ s = s0) by (intros ? ? E; inversion E; auto).
  destruct r as [| |bs].
  - destruct (c_fd d) eqn:Efd; intros E; apply Hskip in E as (-> & -> & ->);
      do 9 (split; [auto; lia|]); auto.
  - destruct (c_fd d) eqn:Efd; intros E; apply Hskip in E as (-> & -> & ->);
      do 9 (split; [auto; lia|]); auto.
  - destruct (c_fd d) eqn:Efd.
    2:{ intros E; apply Hskip in E as (-> & -> & ->); do 9 (split; [auto; lia|]); auto. }
    cbn in Hev. set (bs' := firstn (Z.to_nat (bufMaxLen - c_len d)) bs).
    assert (Hbs' : (length bs' <= Z.to_nat (512 - c_len d))%nat) by (unfold bs'; rewrite firstn_length; unfold bufMaxLen; lia).
    set (b := buf_write (c_buf d) (Z.to_nat (c_len d)) bs').
    assert (Hbl : length b = 512%nat) by (unfold b; rewrite bw_length; lia).
    assert (Hbb : bytes_ok b) by (apply bw_bytes; [auto|apply firstn_bytes; auto]).
    assert (Hrx : firstn (Z.to_nat (c_len d + Z.of_nat (length bs'))) b = firstn 512 (firstn (Z.to_nat (c_len d)) (c_buf d) ++ bs)).
    { replace (Z.to_nat (c_len d + Z.of_nat (length bs'))) with (Z.to_nat (c_len d) + length bs')%nat by lia.
      unfold b. rewrite bw_prefix by lia. rewrite firstn_app. f_equal.
      - symmetry. apply firstn_all2. rewrite firstn_length; lia.
      - unfold bs', bufMaxLen. rewrite firstn_length. replace (512 - Nat.min (Z.to_nat (c_len d)) (length (c_buf d)))%nat with (Z.to_nat (512 - c_len d)) by lia. reflexivity. }
    destruct (c_store d) as [|it rest] eqn:Est; cbn [ls_empty ls_front].
    { intros E. apply some3 in E as (<- & <- & <-). csimp. do 9 (split; [auto; lia|]). auto. }
    destruct (frame_check b (c_len d + Z.of_nat (length bs'))) eqn:Efc; intros E.
    + apply some3 in E as (<- & <- & <-). csimp. rewrite Efc. do 9 (split; [auto; lia|]). intros _. auto.
    + apply some3 in E as (<- & <- & <-). csimp. rewrite Efc. do 9 (split; [auto; lia|]). intros _. auto.
    + apply some3 in E as (<- & <- & <-). csimp. rewrite Efc. do 9 (split; [auto; lia|]). intros _. auto.
    + destruct (decode_rsp (skipn (c_pos d) b) rsp0) as [a rs|rs|] eqn:Ed; [|apply some3 in E as (<- & <- & <-); csimp; rewrite Efc; do 9 (split; [auto; lia|]); intros _; auto|discriminate].
      destruct (Z.eqb_spec (q_tid (i_req it)) (a_tid a)) as [E1|E1]; cbn [negb] in E;
        [|apply some3 in E as (<- & <- & <-); csimp; rewrite Efc; do 9 (split; [auto; lia|]); intros _; auto].
      destruct (Z.eqb_spec (q_addr (i_req it)) (a_addr a)) as [E2|E2]; cbn [negb] in E;
        [|apply some3 in E as (<- & <- & <-); csimp; rewrite Efc; do 9 (split; [auto; lia|]); intros _; auto].
      destruct (Z.eqb_spec modbusErrorFn (a_func a)) as [E3|E3].
      { apply some3 in E as (<- & <- & <-); csimp; rewrite Efc; do 9 (split; [auto; lia|]). intros _. split; [auto|]. split; [auto|].
        right. exists a, rs. rewrite Ed. auto 10. }
      destruct (Z.eqb_spec (q_func (i_req it)) (a_func a)) as [E4|E4]; cbn [negb] in E;
        [|apply some3 in E as (<- & <- & <-); csimp; rewrite Efc; do 9 (split; [auto; lia|]); intros _; auto].
      apply some3 in E as (<- & <- & <-); csimp; rewrite Efc; do 9 (split; [auto; lia|]). intros _. split; [auto|]. split; [auto|].
      right. exists a, rs. rewrite Ed. rewrite <- E1. auto 10.
Qed.

(** * One event *)

Definition new_item (d : lclient) (e : cev) : list item :=
  match e with EReq it => if refused (map ids (c_store d)) it then [] else [stored it] | _ => [] end.
(** Requests not yet transmitted. *)
Definition pend (d : lclient) : list item :=
  match c_st d with CReceive => tl (c_store d) | _ => c_store d end.

Record step_facts (d : lclient) (w : option (list Z)) (e : cev) (d' : lclient) (os : list cout) : Prop := mkSF {
  sf_inv : CI d' (wire_next w e os);
  sf_tx : txs os = [] /\ (exists k, pend d' = skipn k (pend d ++ new_item d e)) \/
          w = None /\ new_item d e = [] /\ exists it bs, pend d = it :: pend d' /\ encode_req (i_req it) = EncOk bs /\ txs os = [bs];
  sf_ans : peer_step (map ids (c_store d)) w e -> answers (map ids (c_store d)) e os (map ids (c_store d'));
  sf_ids : incl (rsps os) (map ids (c_store d) ++ match e with EReq it => [ids it] | _ => [] end);
  sf_ok : forall c t err data, In (ORsp c t true err data) os ->
      exists r it rest, e = EData (RxBytes r) /\ c_store d = it :: rest /\ (c, t) = ids it /\
        (exists a rst b, decode_rsp (skipn (c_pos d) b) rsp0 = DOk a rst /\
          length b = 512%nat /\ bytes_ok b /\
          (forall rx, w = Some rx -> exists len, 0 <= len <= 512 /\ firstn (Z.to_nat len) b = firstn 512 (rx ++ r) /\ isAduValid b len = true) /\
          a_tid a = q_tid (i_req it) /\ a_addr a = q_addr (i_req it) /\
          ((a_func a = 143 /\ err = a_error a /\ data = []) \/
           (a_func a <> 143 /\ a_func a = q_func (i_req it) /\ err = 0 /\ data = firstn (Z.to_nat (a_nbytes a)) (a_data a))));
  sf_store : exists k, c_store d' = skipn k (c_store d ++ new_item d e)
}.

Lemma some2 {A B} (a a' : A) (b b' : B) : Some (a, b) = Some (a', b') -> a = a' /\ b = b'.
Proof. intros E. inversion E. auto. Qed.

Ltac ffacts l s r := destruct (fail_outs l s r) as [?Hfr ?Hft].

Lemma answers_fail (out : list (Z * Z)) : out = out ++ [].
Proof. now rewrite app_nil_r. Qed.

Lemma has_errors (l : list item) : l <> [] -> has (map ids l) = true.
Proof. destruct l; cbn; congruence. Qed.

(** The common shape of a failed connection. *)
Lemma fail_facts (d d0 : lclient) w e : CI d w -> c_st d <> CBackoff -> c_store d0 = c_store d -> c_st d0 = c_st d ->
  length (c_buf d0) = 512%nat -> bytes_ok (c_buf d0) -> 0 <= c_len d0 <= 512 ->
  (match e with EReq _ => False | EData (RxBytes _) => w = None | _ => True end) ->
  forall d' os, fail_all ls_empty ls_front ls_pop d0 = Some (d', os) -> step_facts d w e d' os.
Proof.
  intros HI Hst Hs0 Hst0 Hb Hby Hl He d' os E.
  pose proof (ci_store _ _ HI) as Hsl.
  rewrite fail_all_list in E by congruence. rewrite Hs0, Hst0 in E. apply some2 in E as (<- & <-).
  ffacts (c_store d) (c_st d) backoffTimeout.
  assert (Hw : wire_next w e (map error_for (c_store d) ++ [OClose] ++ stops (c_st d) ++ [OTimer backoffTimeout]) = None).
  { unfold wire_next. rewrite Hfr, Hft.
    assert (w <> None -> has (map ids (c_store d)) = true).
    { intros Hw. apply has_errors. pose proof (ci_wire _ _ HI) as W. destruct w; [apply W|congruence]. }
    destruct e as [| | |[| |]| |]; try contradiction; cbn [has];
      try (destruct (has (map ids (c_store d))); [reflexivity|]; destruct w; [discriminate H; congruence|reflexivity]). }
  constructor.
  - rewrite Hw. constructor; cbn; auto; try lia. discriminate.
  - left. split; [auto|]. exists (length (pend d ++ new_item d e)). now rewrite skipn_all.
  - intros _. unfold answers. rewrite Hfr. destruct e; try contradiction; cbn [c_store map]; apply answers_fail.
  - rewrite Hfr. apply incl_appl, incl_refl.
  - intros c t err data Hin. exfalso. rewrite !in_app_iff in Hin.
    destruct Hin as [Hin|[Hin|[Hin|Hin]]].
    + apply in_map_iff in Hin as (x & Hx & _). discriminate.
    + cbn in Hin. intuition discriminate.
    + destruct (c_st d); cbn in Hin; intuition discriminate.
    + cbn in Hin. intuition discriminate.
  - eexists. symmetry. apply skipn_all.
Qed.

Lemma step_facts_quiet d w e d' os :
  CI d w -> CI d' w -> rsps os = [] -> txs os = [] -> c_store d' = c_store d -> pend d' = pend d ->
  (match e with EReq _ => False | EData (RxBytes _) => w = None | _ => True end) ->
  step_facts d w e d' os.
Proof.
  intros HI HI' Hr Ht Hs Hp He.
  constructor.
  - unfold wire_next. rewrite Hr, Ht. cbn [has]. destruct e as [| | |[| |]| |]; try contradiction; try exact HI'.
    subst w. exact HI'.
  - left. split; [auto|]. exists 0%nat. cbn [skipn]. rewrite Hp.
    destruct e; try contradiction; cbn; now rewrite app_nil_r.
  - intros _. unfold answers. rewrite Hr, Hs. destruct e; try contradiction; reflexivity.
  - rewrite Hr. apply incl_nil_l.
  - intros c t err data Hin. exfalso.
    assert (In (c, t) (rsps os)) by (unfold rsps; apply in_flat_map; eexists; split; [exact Hin|cbn; auto]).
    rewrite Hr in H. contradiction.
  - exists 0%nat. cbn [skipn]. rewrite Hs. destruct e; try contradiction; cbn; now rewrite app_nil_r.
Qed.

Ltac openCI HI := let H := fresh in pose proof HI as H; destruct H as [?Hbuf ?Hbyt ?Hlen ?Hsto ?Hits ?Hidle ?Htim ?Hfd ?Hwire].

Ltac mkci := constructor; cbn [set_buf set_st set_fd set_timer set_store c_st c_fd c_timer c_store c_buf c_pos c_len]; auto; try lia; try discriminate.

Lemma step_start d w cok d' os : CI d w -> lc_step d (EStart cok) = Some (d', os) -> step_facts d w (EStart cok) d' os.
Proof.
  intros HI E. openCI HI. unfold lc_step, c_step in E.
  destruct d as [st fd tm s b p l]; cbn [c_st c_fd c_timer c_store c_buf c_pos c_len] in *.
  destruct st; try (apply some2 in E as (<- & <-); apply step_facts_quiet; auto; fail).
  rewrite (Hfd eq_refl) in *. rewrite (Hidle eq_refl) in *.
  assert (w = None) by (destruct w; [destruct Hwire; discriminate|auto]). subst w.
  cbn in E. destruct cok; cbn in E; apply some2 in E as (<- & <-);
    apply step_facts_quiet; auto; mkci.
Qed.

Lemma step_connected d w d' os : CI d w -> lc_step d EConnected = Some (d', os) -> step_facts d w EConnected d' os.
Proof.
  intros HI E. openCI HI. unfold lc_step, c_step in E.
  destruct d as [st fd tm s b p l]; cbn [c_st c_fd c_timer c_store c_buf c_pos c_len] in *.
  destruct st; try (apply some2 in E as (<- & <-); apply step_facts_quiet; auto; fail).
  rewrite (Hidle eq_refl) in *.
  assert (w = None) by (destruct w; [destruct Hwire; discriminate|auto]). subst w.
  cbn in E. apply some2 in E as (<- & <-). apply step_facts_quiet; auto; mkci.
Qed.

Lemma step_error d w d' os : CI d w -> lc_step d EError = Some (d', os) -> step_facts d w EError d' os.
Proof.
  intros HI E. openCI HI. unfold lc_step, c_step in E.
  destruct d as [st fd tm s b p l]; cbn [c_st c_fd c_timer c_store c_buf c_pos c_len] in *.
  destruct st; try (apply some2 in E as (<- & <-); apply step_facts_quiet; auto; mkci; fail).
  rewrite (Hidle eq_refl) in *.
  assert (w = None) by (destruct w; [destruct Hwire; discriminate|auto]). subst w.
  cbn in E. apply some2 in E as (<- & <-). apply step_facts_quiet; auto; mkci.
Qed.

Lemma ids_stored it : ids (stored it) = ids it.
Proof. reflexivity. Qed.

Lemma step_req d w it d' os : CI d w -> ev_ok (EReq it) -> enabled d (EReq it) = true ->
  lc_step d (EReq it) = Some (d', os) -> step_facts d w (EReq it) d' os.
Proof.
  intros HI Hev Hen E. openCI HI. unfold lc_step, c_step, on_req, ls_push in E. cbn in Hev, Hen.
  assert (Hq : q_nbytes (i_req it) <= Z.of_nat (length (q_data (i_req it)))) by lia.
  destruct (refused (map ids (c_store d)) it) eqn:Er; pose proof Er as Er0; unfold refused in Er; rewrite map_length in Er.
  - assert (E' : Some (d, [error_for it]) = Some (d', os)).
    { rewrite <- E. destruct d as [st fd tm s b p l]; cbn [c_store c_st] in *. unfold as_capacity, maxAduLen.
      destruct (Nat.ltb_spec (length s) 64) as [H1|H1]; cbn [negb]; [|reflexivity].
      destruct (260 <? q_nbytes (i_req it)); [reflexivity|lia]. }
    apply some2 in E' as (<- & <-). constructor.
    + exact HI.
    + left. split; [reflexivity|]. exists 0%nat. cbn [skipn]. unfold new_item. rewrite Er0. now rewrite app_nil_r.
    + intros _. unfold answers. rewrite Er0. auto.
    + cbn. intros x [<-|[]]. apply in_or_app. cbn. auto.
    + cbn. intros c t err data [H0|[]]. discriminate.
    + exists 0%nat. cbn [skipn]. unfold new_item. rewrite Er0. now rewrite app_nil_r.
  - assert (Hn : (if negb (length (c_store d) <? as_capacity)%nat then Some (c_store d, false)
        else if maxAduLen <? q_nbytes (i_req it) then Some (c_store d, false)
        else if negb (q_nbytes (i_req it) <=? Z.of_nat (length (q_data (i_req it)))) then None
        else Some (c_store d ++ [stored it], true)) = Some (c_store d ++ [stored it], true)).
    { unfold as_capacity, maxAduLen. replace (negb (length (c_store d) <? 64)%nat) with false by lia.
      replace (260 <? q_nbytes (i_req it)) with false by lia. rewrite Hen. reflexivity. }
    rewrite Hn in E. clear Hn.
    assert (Hsk : item_ok (stored it)) by (apply stored_ok; [auto|lia]).
    assert (Hits' : Forall item_ok (c_store d ++ [stored it])) by (apply Forall_app; auto).
    assert (Hlen' : (length (c_store d ++ [stored it]) <= 64)%nat) by (rewrite app_length; cbn; lia).
    assert (Hni : new_item d (EReq it) = [stored it]) by (unfold new_item; now rewrite Er0).
    destruct d as [st fd tm s b p l]; cbn [c_st c_fd c_timer c_store c_buf c_pos c_len set_store] in *.
    assert (Hq1 : forall st', st' = st -> may_hold st' = false ->
      step_facts (mkC st fd tm s b p l) w (EReq it) (mkC st fd tm [] b p l) (map error_for (s ++ [stored it]))).
    { intros st' -> Hm. rewrite (Hidle Hm) in *. constructor.
      - cbn [wire_next]. destruct w; [destruct Hwire as (-> & _); discriminate|]. mkci.
      - left. split; [apply txs_errors|]. exists (length (pend (mkC st fd tm [] b p l) ++ new_item (mkC st fd tm [] b p l) (EReq it))).
        rewrite skipn_all. unfold pend. cbn. destruct st; reflexivity.
      - intros _. unfold answers. cbn [c_store map] in *. rewrite Er0, rsps_errors. cbn. reflexivity.
      - rewrite rsps_errors. cbn. apply incl_refl.
      - cbn. intros c t err data [H0|[]]. discriminate.
      - eexists. symmetry. apply skipn_all. }
    assert (Hq2 : may_hold st = true ->
      step_facts (mkC st fd tm s b p l) w (EReq it) (mkC st fd tm (s ++ [stored it]) b p l) []).
    { intros Hm. constructor.
      - cbn [wire_next]. mkci; [congruence|]. destruct w; [|auto]. destruct Hwire as (? & ? & ? & ? & ?).
        repeat split; auto. now destruct s.
      - left. split; [reflexivity|]. exists 0%nat. rewrite Hni. unfold pend. cbn.
        destruct st; try discriminate; [reflexivity|]. destruct w; [|congruence].
        destruct Hwire as (_ & Hw & _). destruct s; [congruence|reflexivity].
      - intros _. unfold answers. cbn [c_store] in *. rewrite Er0. cbn. now rewrite map_app.
      - apply incl_nil_l.
      - intros c t err data [].
      - exists 0%nat. rewrite Hni. reflexivity. }
    destruct st.
    1,2,6: rewrite flush_list in E by (unfold as_capacity; lia);
           apply some2 in E as (<- & <-); eapply Hq1; eauto.
    2,3: apply some2 in E as (<- & <-); now apply Hq2.
    rewrite (Hidle eq_refl) in *. cbn in E. apply some2 in E as (<- & <-).
    destruct w; [destruct Hwire; discriminate|]. constructor.
    + cbn [wire_next]. mkci.
    + left. split; [reflexivity|]. exists 0%nat. rewrite Hni. reflexivity.
    + intros _. unfold answers. cbn [c_store] in *. rewrite Er0. reflexivity.
    + apply incl_nil_l.
    + cbn. intros c t err data [H0|[]]. discriminate.
    + exists 0%nat. rewrite Hni. reflexivity.
Qed.

(** The timer. *)
Lemma step_timer d w sok cok d' os : CI d w -> enabled d (ETimer sok cok) = true ->
  lc_step d (ETimer sok cok) = Some (d', os) -> step_facts d w (ETimer sok cok) d' os.
Proof.
  intros HI Hen E. openCI HI. unfold lc_step, c_step, on_timer in E. cbn in Hen.
  destruct d as [st fd tm s b p l]; cbn [c_st c_fd c_timer c_store c_buf c_pos c_len set_timer] in *.
  destruct st; cbn [timer_of] in Htim; subst tm; try discriminate.
  - (* connect timeout *)
    rewrite (Hidle eq_refl) in *. assert (w = None) by (destruct w; [destruct Hwire; discriminate|auto]). subst w.
    cbn in E. apply some2 in E as (<- & <-). apply step_facts_quiet; auto; mkci.
  - (* send *)
    assert (w = None) by (destruct w; [destruct Hwire; discriminate|auto]). subst w.
    unfold c_send in E. cbn [set_timer c_st c_fd c_timer c_store c_buf c_pos c_len] in E.
    destruct s as [|it s]; cbn [ls_empty ls_front] in E.
    + cbn in E. apply some2 in E as (<- & <-). apply step_facts_quiet; auto; mkci.
    + inversion Hits as [|? ? Hi1 Hi2]; subst.
      destruct (encode_req (i_req it)) as [bs|bs| |] eqn:Ee in E; try discriminate.
      * destruct (sok && fd) eqn:Es in E.
        -- cbn in E. apply some2 in E as (<- & <-). constructor.
           ++ cbn. mkci. repeat split; auto; try lia; try discriminate. 
           ++ right. split; [auto|]. split; [reflexivity|]. exists it, bs. auto.
           ++ intros _. cbn. reflexivity.
           ++ cbn. apply incl_nil_l.
           ++ cbn. intros c t err data H0. intuition discriminate.
           ++ exists 0%nat. cbn. now rewrite app_nil_r.
        -- cbn [andthen] in E.
           destruct (fail_all ls_empty ls_front ls_pop _) as [[d1 o1]|] eqn:Ef in E; [|discriminate].
           apply some2 in E as (<- & <-). cbn [app].
           eapply fail_facts; [exact HI| | | | | | | |exact Ef]; cbn; auto; discriminate.
      * cbn in E. apply some2 in E as (<- & <-). constructor.
        -- cbn. mkci. cbn in Hsto. lia.
        -- left. split; [reflexivity|]. exists 1%nat. cbn. now rewrite app_nil_r.
        -- intros _. reflexivity.
        -- cbn. intros x [<-|[]]. cbn. auto.
        -- cbn. intros c t err data H0. intuition discriminate.
        -- exists 1%nat. cbn. now rewrite app_nil_r.
  - (* receive timeout *)
    destruct w as [rx|]; [|congruence]. destruct Hwire as (_ & Hne & Hp & Hl & Hr).
    destruct s as [|it s]; [congruence|]. cbn in E. apply some2 in E as (<- & <-). inversion Hits; subst.
    constructor.
    + cbn. mkci. cbn in Hsto. lia.
    + left. split; [reflexivity|]. exists 0%nat. cbn. now rewrite app_nil_r.
    + intros _. reflexivity.
    + cbn. intros x [<-|[]]. cbn. auto.
    + cbn. intros c t err data H0. intuition discriminate.
    + exists 1%nat. cbn. now rewrite app_nil_r.
  - (* backoff over *)
    rewrite (Hidle eq_refl) in *. rewrite (Hfd eq_refl) in *.
    assert (w = None) by (destruct w; [destruct Hwire; discriminate|auto]). subst w.
    cbn in E. destruct cok; cbn in E; apply some2 in E as (<- & <-); apply step_facts_quiet; auto; mkci.
Qed.

(** Data from the link. *)
Lemma wait_small b len : frame_check b len = FrWait -> len <= 260.
Proof.
  unfold frame_check, isAduHdrReceived, isAduDataLenValid, isAduReceived, isAduValid, aduHdrLen, maxAduLen.
  destruct (Z.leb_spec 6 len); cbn [negb]; [|lia].
  destruct (Z.ltb_spec (aduPktLen b + 6) 260); cbn [negb]; [|discriminate].
  destruct (Z.leb_spec (aduPktLen b) len); cbn [negb]; [|lia].
  destruct ((len <? 260) && (aduPktLen b + 6 =? len)); discriminate.
Qed.

Lemma complete_valid b len : frame_check b len = FrComplete -> isAduValid b len = true.
Proof.
  unfold frame_check. destruct (isAduHdrReceived len), (isAduDataLenValid b), (isAduReceived b len), (isAduValid b len); cbn; congruence.
Qed.

Lemma bad_length_check b len rx : length b = 512%nat -> 0 <= len <= 512 -> firstn (Z.to_nat len) b = rx ->
  (bad_length rx = true <-> frame_check b len = FrBadLength).
Proof.
  intros Hb Hl Hr. rewrite (frame_check_rx b len rx Hb Hl Hr). unfold bad_length.
  destruct (Nat.ltb_spec (length rx) 6).
  - replace (6 <=? length rx)%nat with false by lia. cbn. split; discriminate.
  - replace (6 <=? length rx)%nat with true by lia. cbn [andb].
    destruct (254 <=? length_field rx); [tauto|]. split; [discriminate|].
    destruct (_ <? _); [discriminate|]. destruct (negb _); discriminate.
Qed.

Lemma CI_same d w d1 : CI d w -> w = None -> c_st d1 = c_st d -> c_fd d1 = c_fd d -> c_timer d1 = c_timer d ->
  c_store d1 = c_store d -> length (c_buf d1) = 512%nat -> bytes_ok (c_buf d1) -> 0 <= c_len d1 <= 512 -> CI d1 w.
Proof.
  intros [] -> E1 E2 E3 E4 Hb Hy Hl. constructor; auto; try congruence; try (rewrite ?E1, ?E2, ?E3, ?E4; auto; fail).
Qed.

Lemma step_data d w r d' os : CI d w -> ev_ok (EData r) -> enabled d (EData r) = true ->
  lc_step d (EData r) = Some (d', os) -> step_facts d w (EData r) d' os.
Proof.
  intros HI Hev Hen E. openCI HI. cbn in Hen. unfold lc_step, c_step, on_data in E.
  assert (Hw0 : c_st d <> CReceive -> w = None) by (intros; destruct w; [destruct Hwire; congruence|auto]).
  assert (Hquiet : c_st d <> CReceive -> step_facts d w (EData r) d []).
  { intros H. apply step_facts_quiet; auto. rewrite (Hw0 H). now destruct r. }
  assert (Hrest : c_st d <> CReceive -> c_st d <> CBackoff ->
    match c_receive ls_empty ls_front d r with
    | None => None
    | Some (c1, o1, SError) => andthen (Some (c1, o1)) (fail_all ls_empty ls_front ls_pop)
    | Some (c1, o1, _) => Some (c1, o1)
    end = Some (d', os) -> step_facts d w (EData r) d' os).
  { intros Hnr Hnb E1. specialize (Hw0 Hnr).
    destruct (c_receive ls_empty ls_front d r) as [[[d1 o1] s]|] eqn:Erc; [|discriminate].
    pose proof (receive_cases d r d1 o1 s Hbuf Hbyt Hlen Hev Erc) as (Q1 & Q2 & Q3 & Q4 & Q5 & Q6 & Q7 & Q8 & Q9 & Q10).
    assert (HI1 : CI d1 w) by (eapply CI_same; eauto).
    assert (Hp1 : pend d1 = pend d) by (unfold pend; now rewrite Q1, Q4).
    assert (Hflow : (o1 = [] /\ (s = SError -> d1 = d /\ match r with RxBytes _ => w = None | _ => True end)) \/
       s <> SError /\ exists bs it rest, r = RxBytes bs /\ c_store d = it :: rest /\ frame_check (c_buf d1) (c_len d1) <> FrWait /\
         (o1 = [error_for it] \/
                  exists a rest, decode_rsp (skipn (c_pos d) (c_buf d1)) rsp0 = DOk a rest /\
                    a_tid a = q_tid (i_req it) /\ a_addr a = q_addr (i_req it) /\
                    ((a_func a = 143 /\ o1 = [ORsp (i_client it) (q_tid (i_req it)) true (a_error a) []]) \/
                     (a_func a <> 143 /\ a_func a = q_func (i_req it) /\
                      o1 = [ORsp (i_client it) (q_tid (i_req it)) true 0 (firstn (Z.to_nat (a_nbytes a)) (a_data a))])))).
    { destruct (Z_lt_le_dec 260 (c_len d)) as [H260|H260].
      { destruct (Q9 H260) as (-> & -> & ->). left. split; [auto|]. discriminate. }
      specialize (Q10 H260). rewrite Hen in Q10. destruct r as [| |bs].
      - left. destruct Q10 as (-> & -> & ->). auto.
      - left. destruct Q10 as (-> & -> & ->). auto.
      - destruct (c_store d) as [|it rest] eqn:Est.
        + left. destruct Q10 as (-> & -> & _). split; [auto|discriminate].
        + destruct Q10 as (_ & Q10). destruct (frame_check (c_buf d1) (c_len d1)) eqn:Efc.
          * left. destruct Q10 as (-> & -> & _). split; [auto|discriminate].
          * left. destruct Q10 as (-> & -> & _). split; [auto|discriminate].
          * right. destruct Q10 as (-> & -> & _). split; [discriminate|]. exists bs, it, rest.
            do 2 (split; [auto|]). split; [discriminate|auto].
          * right. destruct Q10 as (-> & Q10). split; [discriminate|]. exists bs, it, rest.
            do 2 (split; [auto|]). split; [discriminate|auto]. }
    destruct Hflow as [(Ho & Hs)|(Hs & bs & it & rest & -> & Est & Hfc & Ho)].
    - subst o1. assert (Hq : step_facts d w (EData r) d1 []).
      { apply step_facts_quiet; auto. rewrite Hw0. now destruct r. }
      destruct s; try (apply some2 in E1 as (<- & <-); exact Hq).
      destruct (Hs eq_refl) as [-> Hs']. cbn [andthen] in E1.
      destruct (fail_all ls_empty ls_front ls_pop d) as [[d2 o2]|] eqn:Ef; [|discriminate].
      apply some2 in E1 as (<- & <-). cbn [app].
      eapply fail_facts; [exact HI| | | | | | | |exact Ef]; auto. 
    - assert (E2 : Some (d1, o1) = Some (d', os)) by (destruct s; congruence). apply some2 in E2 as (<- & <-).
      assert (Hr : rsps o1 = [ids it]).
      { destruct Ho as [->|(a & rs & _ & _ & _ & [(_ & ->)|(_ & _ & ->)])]; reflexivity. }
      constructor.
      + unfold wire_next. rewrite Hr. cbn [has]. subst w. exact HI1.
      + left. split; [exact Q8|]. exists 0%nat. cbn. now rewrite app_nil_r.
      + intros [Hc|(rx & Hc & _)]; [rewrite Est in Hc; discriminate|congruence].
      + rewrite Hr, Est. cbn. intros x [<-|[]]. cbn. auto.
      + intros c t err data Hin. destruct Ho as [->|(a & rs & Hd & Ht & Ha & Ho)].
        { cbn in Hin. destruct Hin as [Hin|[]]; discriminate. }
        exists bs, it, rest. split; [auto|]. split; [auto|].
        destruct Ho as [(Hf & ->)|(Hf0 & Hf & ->)]; cbn in Hin; destruct Hin as [Hin|[]]; inversion Hin; subst;
          (split; [reflexivity|]); exists a, rs, (c_buf d1); do 3 (split; [auto|]); (split; [congruence|]); auto 10.
      + exists 0%nat. cbn [skipn new_item]. now rewrite Q4, app_nil_r. }
  destruct (c_st d) eqn:Est; try (apply some2 in E as (<- & <-); apply Hquiet; discriminate);
    try (apply Hrest; [discriminate|discriminate|exact E]).
  clear Hquiet Hrest Hw0.
  destruct w as [rx|]; [|congruence]. destruct Hwire as (_ & Hne & Hpos & Hl260 & Hrx).
  destruct (c_receive ls_empty ls_front d r) as [[[d1 o1] s]|] eqn:Erc; [|discriminate].
  pose proof (receive_cases d r d1 o1 s Hbuf Hbyt Hlen Hev Erc) as (Q1 & Q2 & Q3 & Q4 & Q5 & Q6 & Q7 & Q8 & Q9 & Q10).
  clear Q9. specialize (Q10 Hl260). rewrite Hen in Q10. rewrite Hrx in Q10.
  destruct r as [| |bs].
  - destruct Q10 as (-> & -> & ->). apply some2 in E as (<- & <-). apply step_facts_quiet; auto.
  - destruct Q10 as (-> & -> & ->). cbn [andthen] in E.
    destruct (fail_all ls_empty ls_front ls_pop d) as [[d2 o2]|] eqn:Ef; [|discriminate].
    apply some2 in E as (<- & <-). cbn [app]. eapply fail_facts; [exact HI| | | | | | | |exact Ef]; auto. congruence.
  - destruct (c_store d) as [|it rest] eqn:Esto; [congruence|]. destruct Q10 as (Hrx1 & Q10).
    pose proof (bad_length_check (c_buf d1) (c_len d1) _ Q5 Q7 Hrx1) as Hbad.
    inversion Hits as [|? ? Hi1 Hi2]; subst.
    assert (Hdone : s = SDone -> step_facts d (Some (firstn (Z.to_nat (c_len d)) (c_buf d))) (EData (RxBytes bs))
       (mkC CSend (c_fd d1) (Some sendDelay) rest (c_buf d1) (c_pos d1) (c_len d1)) (o1 ++ [OStop; OTimer sendDelay])).
    { intros ->. assert (Hcs : (o1 = [] /\ frame_check (c_buf d1) (c_len d1) = FrBadLength) \/
        (rsps o1 = [ids it] /\ frame_check (c_buf d1) (c_len d1) <> FrBadLength)).
      { destruct (frame_check (c_buf d1) (c_len d1)).
        - destruct Q10 as (_ & Hc & _); discriminate.
        - left. destruct Q10 as (-> & _); auto.
        - right. destruct Q10 as (-> & _). split; [reflexivity|discriminate].
        - right. destruct Q10 as (_ & [->|(a & rs & _ & _ & _ & [(_ & ->)|(_ & _ & ->)])]); split; try reflexivity; discriminate. }
      assert (HCI : CI (mkC CSend (c_fd d1) (Some sendDelay) rest (c_buf d1) (c_pos d1) (c_len d1)) None).
      { mkci. cbn in Hsto. lia. }
      assert (Hr : rsps (o1 ++ [OStop; OTimer sendDelay]) = rsps o1) by (rewrite rsps_app; cbn; now rewrite app_nil_r).
      constructor.
      - unfold wire_next. rewrite Hr. destruct Hcs as [(-> & Hc)|(-> & Hc)]; [|exact HCI].
        cbn [rsps flat_map has]. apply Hbad in Hc. rewrite Hc. exact HCI.
      - left. rewrite txs_app, Q8. split; [reflexivity|]. exists 0%nat. unfold pend. rewrite Est, Esto. cbn.
        now rewrite app_nil_r.
      - intros [Hc|(rx' & Hc & Hg)].
        + rewrite Esto in Hc. discriminate.
        + inversion Hc; subst rx'. unfold answers. rewrite Hr. destruct Hcs as [(_ & Hc')|(-> & _)].
          * apply Hbad in Hc'. congruence.
          * rewrite Esto. reflexivity.
      - rewrite Hr, Esto. destruct Hcs as [(-> & _)|(-> & _)]; [apply incl_nil_l|].
        cbn. intros x [<-|[]]. cbn. auto.
      - intros c t err data Hin. apply in_app_iff in Hin. destruct Hin as [Hin|Hin]; [|cbn in Hin; intuition discriminate].
        assert (Hcomp : frame_check (c_buf d1) (c_len d1) = FrComplete).
        { destruct (frame_check (c_buf d1) (c_len d1)); auto; destruct Q10 as (-> & _); cbn in Hin; intuition discriminate. }
        rewrite Hcomp in Q10. destruct Q10 as (_ & [->|(a & rs & Hd & Ht & Ha & Ho)]).
        { cbn in Hin. destruct Hin as [Hin|[]]; discriminate. }
        exists bs, it, rest. split; [auto|]. split; [auto|].
        assert (Hv := complete_valid _ _ Hcomp).
        destruct Ho as [(Hf & ->)|(Hf0 & Hf & ->)]; cbn in Hin; destruct Hin as [Hin|[]]; inversion Hin; subst;
          (split; [reflexivity|]); exists a, rs, (c_buf d1); do 3 (split; [auto|]);
          (split; [intros rx Erx; inversion Erx; subst; eauto|]); auto 10.
      - exists 1%nat. rewrite Esto. cbn. now rewrite app_nil_r. }
    destruct s.
    + (* wait *)
      apply some2 in E as (<- & <-).
      assert (Hfw : frame_check (c_buf d1) (c_len d1) = FrWait /\ o1 = [] /\ c_pos d1 = c_pos d).
      { destruct (frame_check (c_buf d1) (c_len d1)); intuition discriminate. }
      destruct Hfw as (Hfw & -> & Hp1). constructor.
      * unfold wire_next. cbn [rsps flat_map has].
        destruct (bad_length _) eqn:Eb; [destruct Hbad as [Hbad _]; specialize (Hbad eq_refl); congruence|].
        constructor; rewrite ?Q1, ?Q2, ?Q3, ?Q4, ?Est; auto; try congruence; try discriminate.
        do 2 (split; [auto; congruence|]). split; [congruence|]. split; [eapply wait_small; eauto|]. auto.
      * left. split; [reflexivity|]. exists 0%nat. unfold pend. rewrite Q1, Q4, Est, Esto. cbn. now rewrite app_nil_r.
      * intros _. unfold answers. rewrite Q4, Esto. reflexivity.
      * apply incl_nil_l.
      * intros c t err data [].
      * exists 0%nat. rewrite Q4, Esto. cbn. now rewrite app_nil_r.
    + (* frame handled *)
      cbn [andthen] in E. unfold transit, on_exit in E. rewrite Q1, Q4, Est in E. cbn [cst_eqb ls_pop] in E.
      assert (E2 : Some (mkC CSend (c_fd d1) (Some sendDelay) rest (c_buf d1) (c_pos d1) (c_len d1), o1 ++ [OStop; OTimer sendDelay]) = Some (d', os)) by exact E.
      apply some2 in E2 as (<- & <-). apply Hdone. reflexivity.
    + exfalso. destruct (frame_check (c_buf d1) (c_len d1)); intuition discriminate.
    + exfalso. destruct (frame_check (c_buf d1) (c_len d1)); intuition discriminate.
Qed.

Lemma step_ok d w e d' os : CI d w -> ev_ok e -> enabled d e = true -> lc_step d e = Some (d', os) -> step_facts d w e d' os.
Proof.
  intros HI Hev Hen E. destruct e.
  - now apply step_start.
  - now apply step_req.
  - now apply step_connected.
  - now apply step_data.
  - now apply step_error.
  - now apply step_timer.
Qed.
