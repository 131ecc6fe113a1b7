(** Invariants of the assembled OPC UA server. *)
From Verif Require Import Base QueueModel QueueSpec QueueProofs PoolModel PoolSpec PoolProofs EntProofs ModbusCodecModel ModbusCodecSpec
  ModbusClientModel ModbusClientProofs UaCodecModel UaCodecSpec UaCodecProofs UaCodecLocal UaTcpModel UaTcpSpec UaTcpProofs UaTcpRuns UaTcpFacts
  UaChanModel UaChanSpec UaChanProofs UaChanRuns UaChanFacts UaServiceModel UaServiceSpec UaServiceProofs UaServiceRuns UaServiceFacts
  UaSystemModel UaSystemSpec.
Local Open Scope Z_scope.

(** * What the transport hands on *)

Lemma uhdr_any n p : length p = pktLen -> bytes_ok p ->
  exists h, dec_uhdr uhdr0 (mkSdu 0 n p) = DOk h (mkSdu 12 n p) /\ is_byte (uh_final h) /\ is_u32 (uh_chan h).
Proof.
  intros HL HB. pose proof pktLen_Z as PZ.
  destruct (wire_parts p HB ltac:(lia)) as (a & b & c & f & rest & Em & _ & A & B & C & F & S & Ch & N & T).
  assert (W : wf_uhdr (mkUh (firstn 3 p) (nth 3 p 0) (le_at 4 p) (le_at 8 p))).
  { unfold wf_uhdr. cbn [uh_type uh_final uh_size uh_chan]. rewrite T, N.
    split; [split; [fb|reflexivity]|]. repeat split; auto; unfold is_u32, is_byte in *; lia. }
  apply R_uhdr in W.
  assert (E : s_uhdr (mkUh (firstn 3 p) (nth 3 p 0) (le_at 4 p) (le_at 8 p)) = firstn 12 p).
  { unfold s_uhdr, s_1, s_4. cbn [uh_type uh_final uh_size uh_chan]. rewrite T, N.
    assert (E1 : le_bytes 1 f = [f]) by (cbn; f_equal; unfold is_byte in F; lia). rewrite E1.
    rewrite Em at 3. reflexivity. }
  rewrite E in W. specialize (W (mkSdu 0 n p)). cbn [k_tail k_head k_pkt Nat.add] in W.
  rewrite firstn_length, Nat.min_l in W by lia. eexists. split; [apply W|].
  - apply holds_iff. exists (skipn 12 p). cbn [k_pkt skipn]. now rewrite firstn_skipn.
  - cbn [uh_final uh_chan]. rewrite N. auto.
Qed.

Lemma chunk_byte o : is_byte (chunk_of o).
Proof. unfold chunk_of, is_byte. destruct (o =? 67), (o =? 70), (o =? 65); lia. Qed.

Lemma secured_wf uid c rx r c1 o res k u ch ck len d : length (k_pkt (t_rx c)) = pktLen -> bytes_ok (k_pkt (t_rx c)) -> k_tail (t_rx c) = 0%nat ->
  rx_ok (t_rx c) rx -> t_link c = Some true -> lrx_ok r -> u_secured uid c r = Some (c1, o, res) -> In (UFwd k u ch ck len d) o ->
  u = uid /\ is_u32 ch /\ is_byte ck /\ 8 <= len <= 4072 /\ bytes_ok d /\ len = Z.of_nat (length d).
Proof.
  intros HL HB HT0 HR Hk Hr H Hi. unfold u_secured in H. pose proof pktLen_Z as PZ.
  destruct (u_receive c r) as [[c0 res0]|] eqn:Er; [|discriminate H].
  destruct (receive_ok _ _ _ _ _ HL HB HR Hk Hr Er) as (S & T & N & R & D).
  destruct res0; try (apply some3 in H as (<- & <- & <-); contradiction).
  destruct (D eq_refl) as (D1 & _). destruct S as [S1 S2 S3 S4 S5 S6].
  destruct (uhdr_any (k_head (t_rx c0)) (k_pkt (t_rx c0)) S5 S6) as (h & Eh & Hf & Hc).
  assert (E0 : t_rx c0 = mkSdu 0 (k_head (t_rx c0)) (k_pkt (t_rx c0))) by (destruct (t_rx c0); cbn in *; congruence).
  rewrite <- E0 in Eh. rewrite Eh in H. cbv zeta in H. cbn [k_head k_tail k_pkt] in H.
  assert (G : forall k0,
      (if msgRoom <? Z.of_nat (k_head (t_rx c0)) then None
       else Some (z_rx c0 (mkSdu 12 (k_head (t_rx c0)) (k_pkt (t_rx c0))), [UFwd k0 uid (uh_chan h) (chunk_of (uh_final h)) (Z.of_nat (k_head (t_rx c0)))
              (firstn (k_head (t_rx c0)) (skipn 12 (k_pkt (t_rx c0))))], UrDone)) = Some (c1, o, res) ->
      u = uid /\ is_u32 ch /\ is_byte ck /\ 8 <= len <= 4072 /\ bytes_ok d /\ len = Z.of_nat (length d)).
  { intros k0 E. unfold msgRoom in E. destruct (Z.ltb_spec 4072 (Z.of_nat (k_head (t_rx c0)))); [discriminate E|].
    apply some3 in E as (_ & <- & _). destruct Hi as [Hi|[]].
    assert (X : u = uid /\ ch = uh_chan h /\ ck = chunk_of (uh_final h) /\ len = Z.of_nat (k_head (t_rx c0)) /\
       d = firstn (k_head (t_rx c0)) (skipn 12 (k_pkt (t_rx c0)))) by (clear - Hi; repeat split; congruence).
    destruct X as (-> & -> & -> & -> & ->). split; [auto|]. split; [auto|]. split; [apply chunk_byte|]. split; [lia|].
    split; [now apply firstn_bytes, bytes_skipn|]. rewrite firstn_length, skipn_length. lia. }
  destruct (kind_of _) as [[| |]|].
  - destruct (t_chan c) as [a|]; [destruct (a =? uh_chan h)|]; first [now apply G in H|apply some3 in H as (_ & <- & _); contradiction].
  - now apply G in H.
  - destruct (t_chan c) as [a|]; [destruct (a =? uh_chan h)|]; first [now apply G in H|apply some3 in H as (_ & <- & _); contradiction].
  - apply some3 in H as (_ & <- & _). contradiction.
Qed.

Lemma fwd_wf b0 v tr e v' os k uid ch ck len d : ureach b0 v tr -> tev_ok e -> tsrv_enabled v e = true -> tsrv_step v e = Some (v', os) ->
  In (UFwd k uid ch ck len d) os ->
  1 <= uid <= 32 /\ is_u32 ch /\ is_byte ck /\ 8 <= len <= 4072 /\ bytes_ok d /\ len = Z.of_nat (length d).
Proof.
  intros HR Hev Hen Hs Hi. destruct (fwd_facts _ _ _ _ _ _ HR Hev Hen Hs _ _ _ _ _ _ Hi) as (HA & HL & _ & r & w & ->).
  pose proof (UaTcpFacts.live_range _ _ _ _ HR HL) as Hu. split; [exact Hu|].
  pose proof (UaTcpRuns.reach_inv _ _ _ HR) as HI. destruct (conn_inv _ _ uid HI Hu) as (c & Ec & HT & En & Eg).
  pose proof (enabled_link _ _ _ _ _ Ec Hen) as Hk. pose proof (proj1 (acked_st _ _ _ HT) HA) as Est.
  cbn [tsrv_step] in Hs. unfold tsrv_on in Hs. rewrite Eg, En in Hs. pose proof HT as [T1 T2 T3 T4]. rewrite Est in T3.
  destruct T3 as (A1 & A2 & A3 & A4 & A5 & A6 & A7). specialize (T4 ltac:(congruence)).
  unfold u_data in Hs. rewrite Est in Hs. destruct (u_secured uid c r) as [[[c1 o] res]|] eqn:Es; [|discriminate Hs].
  assert (Ho : In (UFwd k uid ch ck len d) o).
  { destruct (secured_ok _ _ _ _ _ _ _ T1 T2 T4 Hk Hev Es) as ([S1 S2 S3 S4 S5 S6] & Hc).
    destruct Hc as [(-> & k0 & ch0 & ck0 & len0 & d0 & -> & Hch)|[(-> & ->)|(-> & -> & _)]]; cbn [u_then] in Hs.
    - unfold u_arm in Hs. rewrite (eq_trans S2 A2) in Hs.
      match type of Hs with match ?x with _ => _ end = _ => destruct x; [|discriminate Hs] end. apply some2 in Hs as (_ & <-).
      cbn [app] in Hi. destruct Hi as [Hi|[Hi|[]]]; [left; exact Hi|discriminate Hi].
    - rewrite (fail_eq uid c1 _ ltac:(congruence) (eq_trans S2 A2)) in Hs.
      match type of Hs with match ?x with _ => _ end = _ => destruct x; [|discriminate Hs] end. apply some2 in Hs as (_ & <-).
      unfold closing in Hi. destruct (t_chan c1); cbn in Hi; intuition discriminate.
    - match type of Hs with match ?x with _ => _ end = _ => destruct x; [|discriminate Hs] end. apply some2 in Hs as (_ & <-). contradiction. }
  destruct (secured_wf _ _ _ _ _ _ _ _ _ _ _ _ _ T1 T2 A7 T4 Hk Hev Es Ho) as (_ & X). exact X.
Qed.

(** * Well-formed messages *)

Notation inr x := (1 <= x <= 32) (only parsing).
Definition iok (m : imsg) : Prop :=
  match m with
  | IFwd k x => umsg_ok x /\ inr (um_conn x) /\ (k <> KOpn -> inr (um_chan x)) /\ 8 <= um_len x /\ um_len x = Z.of_nat (length (um_data x))
  | IRelInd c h => inr c /\ inr h
  | ITx k x => umsg_ok x /\ inr (um_conn x) /\ inr (um_chan x)
  | IRelReq c => inr c
  | IInd x => emsg_ok x /\ inr (e_conn (em_hdr x)) /\ inr (e_chan (em_hdr x)) /\ (e_sess (em_hdr x) = invalidSuid \/ inr (e_sess (em_hdr x)))
  | ISend x => emsg_ok x /\ inr (e_conn (em_hdr x)) /\ inr (e_chan (em_hdr x)) /\ em_len x <= 254
  | IAssoc h => ehdr_ok h /\ inr (e_conn h) /\ inr (e_chan h) /\ inr (e_sess h)
  end.

Lemma r32 x : inr x -> is_u32 x. Proof. unfold is_u32. lia. Qed.
#[local] Hint Resolve r32 : core.

Lemma kept_in keep ms m : In m (kept keep ms) -> In m ms.
Proof.
  revert keep. induction ms as [|x r IH]; intros [|[|] k] H; cbn in *; auto.
  - destruct H as [H|H]; [auto|right; eauto].
  - right. eauto.
Qed.
Lemma t_in m os : In m (t_msgs os) <->
  (exists k uid ch ck len d, In (UFwd k uid ch ck len d) os /\ m = IFwd k (mkUm uid ch ck len d)) \/ (exists uid ch, In (URelInd uid ch) os /\ m = IRelInd uid ch).
Proof.
  unfold t_msgs. rewrite in_flat_map. split.
  - intros (o & Ho & Hm). destruct o; cbn in Hm; try contradiction; destruct Hm as [<-|[]]; [left; eauto 10|right; eauto].
  - intros [(k & uid & ch & ck & len & d & Ho & ->)|(uid & ch & Ho & ->)]; eexists; (split; [exact Ho|]); left; reflexivity.
Qed.
Lemma c_in m os : In m (c_msgs os) <->
  (exists k x, In (CTx k x) os /\ m = ITx k x) \/ (exists x, In (CInd x) os /\ m = IInd x) \/ (exists c, In (CRelReq c) os /\ m = IRelReq c).
Proof.
  unfold c_msgs. rewrite in_flat_map. split.
  - intros (o & Ho & Hm). destruct o; cbn in Hm; try contradiction; destruct Hm as [<-|[]]; [left; eauto 10|right; left; eauto|right; right; eauto].
  - intros [(k & x & Ho & ->)|[(x & Ho & ->)|(c & Ho & ->)]]; eexists; (split; [exact Ho|]); left; reflexivity.
Qed.
Lemma s_in m os : In m (s_msgs os) <-> (exists x, In (SSend x) os /\ m = ISend x) \/ (exists h, In (SAssoc h) os /\ m = IAssoc h).
Proof.
  unfold s_msgs. rewrite in_flat_map. split.
  - intros (o & Ho & Hm). destruct o; cbn in Hm; try contradiction; destruct Hm as [<-|[]]; [left; eauto|right; eauto].
  - intros [(x & Ho & ->)|(h & Ho & ->)]; eexists; (split; [exact Ho|]); left; reflexivity.
Qed.

(** ** Transport *)
Definition from_queue (e : tev) : Prop := match e with EvMsg _ m _ => inr (um_conn m) /\ inr (um_chan m) | EvRelease u => inr u | _ => True end.

Lemma closing_in uid ch o : In o (closing uid ch) -> (exists c, ch = Some c /\ o = URelInd uid c) \/ o = UDisarm uid \/ o = UFree uid.
Proof. unfold closing. destruct ch as [c|]; cbn; intuition (subst; eauto). Qed.

(** Every release indication of a step, and when it is given. *)
Lemma relind_facts b0 v tr e v' os uid ch : ureach b0 v tr -> tev_ok e -> tsrv_enabled v e = true -> tsrv_step v e = Some (v', os) ->
  In (URelInd uid ch) os ->
  inr uid /\ In (UFree uid) os /\ uacked uid tr /\
  (uchan uid tr = Some ch \/ exists m w, e = EvMsg KOpn m w /\ um_conn m = uid /\ um_chan m = ch).
Proof.
  intros HR Hev Hen Hs Hi. destruct (step_cases _ _ _ _ _ _ HR Hev Hen Hs) as [(u & c & Hu & Ec & HT & Hc)|(b1 & b2 & b3 & _ & Hc)].
  - pose proof (acked_st _ _ _ HT) as HA. pose proof (conn_chan _ _ _ HT) as HC.
    assert (G : forall x, In (URelInd uid ch) (closing u x) -> t_st c = UConn ->
      (x = Some ch -> uchan u tr = Some ch \/ exists m w, e = EvMsg KOpn m w /\ um_conn m = u /\ um_chan m = ch) ->
      inr uid /\ In (UFree uid) (closing u x) /\ uacked uid tr /\ (uchan uid tr = Some ch \/ exists m w, e = EvMsg KOpn m w /\ um_conn m = uid /\ um_chan m = ch)).
    { intros x H Est Hx. apply closing_in in H as [(c0 & -> & E)|[E|E]]; [|discriminate E|discriminate E]. injection E as -> ->.
      split; [auto|]. split; [cbn; auto|]. split; [now apply HA|]. auto. }
    destruct e as [? ? ?|t r w|t|t|kd m w|t].
    + contradiction.
    + destruct Hc as (-> & [(_ & ->)|[(Est & [->|[->|[->|(k & ->)]]])|(Est & [->|[->|(k & ch0 & ck & len & d & -> & _)]])]]); cbn in Hi; try intuition discriminate.
      apply G; auto. intros E. left. unfold uchan. congruence.
    + destruct Hc as (_ & ->). contradiction.
    + destruct Hc as (_ & Hn & ->). destruct (t_st c) eqn:Est.
      * congruence. * cbn in Hi; intuition discriminate.
      * apply G; auto. intros E. left. unfold uchan. congruence.
    + destruct Hc as (Hm & [(_ & ->)|(Est & [(k & Hk & -> & Hch)| ->])]).
      * contradiction. * cbn in Hi; intuition discriminate.
      * apply G; auto. intros E. destruct kd; try (left; unfold uchan; congruence). right. exists m, w. injection E as E. auto.
    + destruct Hc as (_ & ->). destruct (ust_eqb (t_st c) UConn); cbn in Hi; intuition discriminate.
  - destruct Hc as [(_ & ->)|[(_ & _ & _ & ->)|(_ & _ & _ & u & _ & _ & ->)]]; [| |destruct b3]; cbn in Hi; intuition discriminate.
Qed.

Lemma uchan_next uid tr e os : uchan uid (tr ++ [(e, os)]) =
  if existsb (is_ufree uid) os then None
  else match e with
       | EvMsg KOpn m _ => if (um_conn m =? uid) && g_acked (uview_of uid tr) then Some (um_chan m) else uchan uid tr
       | _ => uchan uid tr
       end.
Proof. unfold uchan. rewrite uview_snoc. reflexivity. Qed.

Definition chans_ok (tr : utrace) : Prop := forall uid ch, uchan uid tr = Some ch -> inr ch.
Lemma chans_step tr e os : chans_ok tr -> from_queue e -> chans_ok (tr ++ [(e, os)]).
Proof.
  intros H Hq uid ch. rewrite uchan_next. destruct (existsb (is_ufree uid) os); [discriminate|].
  destruct e as [? ? ?|? ? ?|?|?|[| |] m w|?]; try apply H. destruct ((um_conn m =? uid) && g_acked (uview_of uid tr)); [|apply H].
  intros E. injection E as <-. apply Hq.
Qed.
Lemma t_wf b0 v tr e v' os m : ureach b0 v tr -> tev_ok e -> tsrv_enabled v e = true -> tsrv_step v e = Some (v', os) ->
  chans_ok tr -> from_queue e -> In m (t_msgs os) -> iok m.
Proof.
  intros HR Hev Hen Hs HC Hq Hm. apply t_in in Hm as [(k & uid & ch & ck & len & d & Ho & ->)|(uid & ch & Ho & ->)].
  - destruct (fwd_wf _ _ _ _ _ _ _ _ _ _ _ _ HR Hev Hen Hs Ho) as (A & B & C & D & E & F).
    destruct (fwd_facts _ _ _ _ _ _ HR Hev Hen Hs _ _ _ _ _ _ Ho) as (_ & _ & G & _).
    unfold iok, umsg_ok. cbn [um_conn um_chan um_chunk um_len um_data].
    split; [split; [auto|split; [auto|split; [auto|split; [lia|split; [auto|lia]]]]]|]. split; [auto|]. split; [|split; [lia|auto]].
    intros Hk. apply (HC uid), G, Hk.
  - destruct (relind_facts _ _ _ _ _ _ _ _ HR Hev Hen Hs Ho) as (A & _ & _ & [E|(x & w & -> & <- & <-)]); cbn [iok].
    + split; [auto|]. now apply (HC uid).
    + split; [auto|]. apply Hq.
Qed.

(** ** Channels *)
Definition c_from_queue (e : cev) : Prop :=
  match e with
  | CvOpen m _ _ _ _ => inr (um_conn m)
  | CvClose m _ _ | CvMsg m _ => inr (um_conn m) /\ inr (um_chan m)
  | CvAssoc h => inr (e_chan h) /\ inr (e_sess h)
  | CvSend m => inr (e_conn (em_hdr m)) /\ inr (e_chan (em_hdr m))
  | CvRelInd _ ch => inr ch
  end.
Lemma rsp_wf conn uid l : inr conn -> inr uid -> Z.of_nat (length l) <= 4072 -> bytes_ok l -> iok (ITx KMsg (rsp_of conn uid l)).
Proof.
  intros H1 H2 H3 H4. unfold iok, umsg_ok, rsp_of. cbn [um_conn um_chan um_chunk um_len um_data].
  unfold is_byte. split; [split; [auto|split; [auto|split; [lia|split; [lia|split; [auto|lia]]]]]|auto].
Qed.
Lemma bapp a b : bytes_ok a -> bytes_ok b -> bytes_ok (a ++ b).
Proof. unfold bytes_ok. intros. apply Forall_app. auto. Qed.
Ltac bts := repeat first [apply le_bytes_ok|assumption|apply bytes_dec; reflexivity|apply bapp].
Lemma head_bytes time handle : bytes_ok (rsp_head time handle).
Proof. unfold rsp_head. bts. Qed.
Lemma open_bytes uid seq req handle token t1 t2 life : bytes_ok (open_rsp uid seq req handle token t1 t2 life).
Proof. pose proof (head_bytes t1 handle). unfold open_rsp. bts. Qed.
Lemma close_bytes token seq req handle now : bytes_ok (close_rsp token seq req handle now).
Proof. pose proof (head_bytes now handle). unfold close_rsp. bts. Qed.
Lemma close_len token seq req handle now : length (close_rsp token seq req handle now) = 40%nat.
Proof. reflexivity. Qed.
Lemma msg_len token seq req l : length (msg_rsp token seq req l) = (12 + length l)%nat.
Proof. unfold msg_rsp. rewrite !app_length, !le_bytes_length. reflexivity. Qed.
Lemma msg_bytes token seq req l : bytes_ok l -> bytes_ok (msg_rsp token seq req l).
Proof. intros H. unfold msg_rsp. bts. Qed.

Definition sess_ok (tr : ctrace) : Prop := forall ch s, csession ch tr = Some s -> inr s.
Lemma sess_step tr e os : sess_ok tr -> c_from_queue e -> sess_ok (tr ++ [(e, os)]).
Proof.
  intros H Hq ch s. unfold csession. rewrite cview_snoc. unfold cview_next. specialize (H ch). unfold csession in H.
  destruct e as [m j rnd t1 t2|m j now|m j|h|m|c0 ch0]; cbn [w_sess]; try apply H.
  - destruct os as [|[[| |] r| | | |] [|? ?]]; cbn [w_sess]; try apply H. destruct (um_chan r =? ch); [discriminate|apply H].
  - destruct ((e_chan h =? ch) && _ && _); [|apply H]. intros E. injection E as <-. apply Hq.
Qed.
Lemma c_wf ini v tr e v' os m : creach ini v tr -> cev_ok e -> csrv_step v e = Some (v', os) -> sess_ok tr -> c_from_queue e ->
  In m (c_msgs os) -> iok m.
Proof.
  intros HR He Hs HS Hq Hm. pose proof (step_fact _ _ _ _ _ _ HR He Hs) as F. apply c_in in Hm.
  destruct F as [m0 j rnd t1 t2 os Hop|e t Ec Ht Hn|m0 j e Hor Ht Ho Hac|m0 j Ht Ho Hac Hl|m0 Ht|m0 t Et Ht Ho Hsd Hl|m0 j now t r b Et Ht Ho Hac Hcd|m0 j now Ht Ho Hac Hcd|h Ht Ho|conn ch Ht Ho].
  - destruct Hop as [E|u A B C D|u q r b A B C D].
    + destruct Hm as [(k & x & [] & _)|[(x & [] & _)|(c & [] & _)]].
    + destruct Hm as [(k & x & [H|[]] & _)|[(x & [H|[]] & _)|(c & [H|[]] & _)]]; discriminate H.
    + destruct Hm as [(k & x & [H|[]] & ->)|[(x & [H|[]] & ->)|(c & [H|[]] & ->)]]; try discriminate H. injection H as <- <-.
      apply rsp_wf; [exact Hq|exact B|rewrite open_len; lia|apply open_bytes].
  - destruct Hm as [(k & x & [] & _)|[(x & [] & _)|(c & [] & _)]].
  - assert (Hc : inr (um_conn m0)) by (destruct Hor as [->|(now & ->)]; apply Hq).
    destruct Hm as [(k & x & [H|[H|[]]] & ->)|[(x & [H|[H|[]]] & ->)|(c & [H|[H|[]]] & ->)]]; try discriminate H. injection H as <-. exact Hc.
  - destruct Hm as [(k & x & [H|[]] & ->)|[(x & [H|[]] & ->)|(c & [H|[]] & ->)]]; try discriminate H.
    apply (f_equal (fun o => match o with CInd y => y | _ => x end)) in H. cbv beta iota in H. subst x.
    destruct He as [Hm0 Hj]. pose proof (octets_len m0 j Hm0 Hj) as OL. pose proof (octets_ok m0 j Hm0 Hj) as OB. pose proof pktLen_Z as PZ.
    unfold iok, emsg_ok, ind_of, ehdr_ok. cbn [em_hdr em_len em_data e_conn e_chan e_req e_sess]. destruct Hq as [Hq1 Hq2].
    pose proof Hm0 as (_ & _ & _ & Hlen & _).
    assert (Ss : match csession (um_chan m0) tr with Some s => s | None => 2147483647 end = invalidSuid \/ inr (match csession (um_chan m0) tr with Some s => s | None => 2147483647 end)).
    { destruct (csession (um_chan m0) tr) as [s|] eqn:Es; [right; now apply (HS (um_chan m0))|left; reflexivity]. }
    split; [|auto]. split; [|split; [lia|split]].
    + split; [auto|]. split; [auto|]. split.
      * unfold le_at, is_u32. assert (B : bytes_ok (firstn 4 (skipn 8 (octets m0 j)))) by (now apply firstn_bytes, bytes_skipn).
        assert (L : length (firstn 4 (skipn 8 (octets m0 j))) = 4%nat) by (rewrite firstn_length, skipn_length; lia).
        pose proof (le_val_bound _ B) as V. rewrite L in V. change (256 ^ Z.of_nat 4) with 4294967296 in V. lia.
      * destruct Ss as [->|Ss]; [unfold invalidSuid, is_u32; lia|auto].
    + now apply firstn_bytes, bytes_skipn.
    + rewrite firstn_length, skipn_length. lia.
  - destruct Hm as [(k & x & [] & _)|[(x & [] & _)|(c & [] & _)]].
  - destruct Hm as [(k & x & [H|[]] & ->)|[(x & [H|[]] & ->)|(c & [H|[]] & ->)]]; try discriminate H.
    apply (f_equal (fun o => match o with CTx _ y => y | _ => x end)) in H. cbv beta iota in H. subst x.
    destruct He as (_ & Hel & Heb & Hed). assert (B : bytes_ok (body_of m0)) by (now apply firstn_bytes).
    apply (rsp_wf (e_conn (em_hdr m0)) t); [apply Hq|exact Ht| |now apply msg_bytes]. rewrite msg_len. unfold body_of. rewrite firstn_length. lia.
  - destruct Hq as [Hq1 Hq2]. destruct Hm as [(k & x & [H|[H|[H|[]]]] & ->)|[(x & [H|[H|[H|[]]]] & ->)|(c & [H|[H|[H|[]]]] & ->)]]; try discriminate H.
    + apply (f_equal (fun o => match o with CTx _ y => y | _ => x end)) in H. cbv beta iota in H. subst x.
      apply (rsp_wf (um_conn m0) t); [exact Hq1|exact Ht|rewrite close_len; lia|apply close_bytes].
    + injection H as <-. exact Hq1.
  - destruct Hm as [(k & x & [H|[]] & _)|[(x & [H|[]] & _)|(c & [H|[]] & _)]]; discriminate H.
  - destruct Hm as [(k & x & [] & _)|[(x & [] & _)|(c & [] & _)]].
  - destruct Hm as [(k & x & [H|[]] & _)|[(x & [H|[]] & _)|(c & [H|[]] & _)]]; discriminate H.
Qed.

(** ** Services *)
Lemma endpoint_bytes : bytes_ok endpoint. Proof. unfold endpoint. bts. Qed.
Lemma reply_wf h l : iok (IInd (mkEm h 0 [])) -> bytes_ok l -> Z.of_nat (length l) <= 254 -> iok (ISend (reply h l)).
Proof.
  intros ((Hh & _) & A & B & _) Hb Hl. unfold iok, reply, emsg_ok. cbn [em_hdr em_len em_data] in *.
  split; [split; [auto|split; [lia|split; [auto|lia]]]|]. split; [auto|]. split; [auto|lia].
Qed.
Lemma served_wf tr h now q os m : served tr h now q os -> (forall sid, live sid tr -> inr sid) -> iok (IInd (mkEm h 0 [])) -> In m (s_msgs os) -> iok m.
Proof.
  intros Hsv Hlive Hh Hm. pose proof endpoint_bytes as EB. pose proof (head_bytes now) as HB.
  assert (Hs : forall sid, inr sid -> iok (IInd (mkEm (to_session h sid) 0 []))).
  { intros sid Hsid. destruct Hh as (((h1 & h2 & h3 & h4) & A) & B & C & D). cbn [em_hdr em_len em_data] in *.
    unfold iok, emsg_ok, ehdr_ok, to_session. cbn [em_hdr em_len em_data e_conn e_chan e_req e_sess]. split; [split; [auto|exact A]|]. auto. }
  destruct Hsv as [r|r E|r sid E H1 H2|r sid E H1|r E|r sid E H1|r E|r E E2|r E E2]; cbn [s_msgs flat_map app] in Hm;
    repeat match type of Hm with False => destruct Hm | In _ [] => destruct Hm | In _ (_ :: _) => destruct Hm as [<-|Hm] end.
  - apply reply_wf; [auto| |rewrite endpoints_len; lia]. unfold endpoints_rsp. specialize (HB (rq_handle (eq_hdr r))). bts.
  - apply reply_wf; [auto| |rewrite create_len; lia]. unfold create_rsp. specialize (HB (rq_handle (cs_hdr r))).
    assert (is_byte sid) by (unfold is_byte; lia). assert (bytes_ok [0; sid]) by (repeat constructor; unfold is_byte in *; lia). bts.
  - specialize (Hs sid (Hlive sid H1)). destruct Hs as ((a & _) & b & c & _). cbn [em_hdr] in *. unfold iok. split; [exact a|]. split; [exact b|].
    split; [exact c|]. apply (Hlive sid H1).
  - apply reply_wf; [auto| |rewrite activate_len; lia]. unfold activate_rsp. specialize (HB (rq_handle (as_hdr r))). bts.
  - apply reply_wf; [auto| |rewrite close_s_len; lia]. unfold close_session_rsp. specialize (HB (rq_handle (cl_hdr r))). bts.
  - apply reply_wf; [auto| |rewrite read_len; lia]. unfold read_rsp. specialize (HB (rq_handle (rr_hdr r))). bts.
Qed.

(** * The invariant *)
Record YInv (b0 : list Z) (ini : list (Z * Z)) (y : usys) (tr : ytrace) : Prop := {
  yi_t : ureach b0 (y_t y) (tproj tr);
  yi_c : creach ini (y_c y) (cproj tr);
  yi_s : sreach (y_s y) (sproj tr);
  yi_run : running (sproj tr) = true;
  yi_q : Forall iok (y_q y);
  yi_chan : chans_ok (tproj tr);
  yi_sess : sess_ok (cproj tr)
}.

Lemma tproj_snoc tr r : tproj (tr ++ [r]) = tproj tr ++ match r with RT e os => [(e, os)] | _ => [] end.
Proof. unfold tproj. rewrite flat_map_app. cbn. now rewrite app_nil_r. Qed.
Lemma cproj_snoc tr r : cproj (tr ++ [r]) = cproj tr ++ match r with RC e os => [(e, os)] | _ => [] end.
Proof. unfold cproj. rewrite flat_map_app. cbn. now rewrite app_nil_r. Qed.
Lemma sproj_snoc tr r : sproj (tr ++ [r]) = sproj tr ++ match r with RS e os => [(e, os)] | _ => [] end.
Proof. unfold sproj. rewrite flat_map_app. cbn. now rewrite app_nil_r. Qed.

(** What a step does: the layer it happens in, and the event that layer sees. *)
Inductive ystep (y : usys) (y' : usys) : yev -> yrec -> Prop :=
| ys_net e keep v os : y_enabled y (YNet e keep) = true -> tsrv_step (y_t y) e = Some (v, os) ->
    y' = mkY v (y_c y) (y_s y) (y_q y ++ kept keep (t_msgs os)) -> ystep y y' (YNet e keep) (RT e os)
| ys_tx k m o keep q v os : y_q y = ITx k m :: q -> tsrv_step (y_t y) (EvMsg k m (o_w o)) = Some (v, os) ->
    y' = mkY v (y_c y) (y_s y) (q ++ kept keep (t_msgs os)) -> ystep y y' (YMsg o keep) (RT (EvMsg k m (o_w o)) os)
| ys_rel c o keep q v os : y_q y = IRelReq c :: q -> tsrv_step (y_t y) (EvRelease c) = Some (v, os) ->
    y' = mkY v (y_c y) (y_s y) (q ++ kept keep (t_msgs os)) -> ystep y y' (YMsg o keep) (RT (EvRelease c) os)
| ys_chan m e o keep q v os : y_q y = m :: q ->
    match m with
    | IFwd KOpn x => e = CvOpen x (o_j o) (o_rnd o) (o_t1 o) (o_t2 o)
    | IFwd KClo x => e = CvClose x (o_j o) (o_t1 o)
    | IFwd KMsg x => e = CvMsg x (o_j o)
    | IRelInd conn ch => e = CvRelInd conn ch
    | IAssoc h => e = CvAssoc h
    | ISend x => e = CvSend x
    | _ => False
    end -> csrv_step (y_c y) e = Some (v, os) ->
    y' = mkY (y_t y) v (y_s y) (q ++ kept keep (c_msgs os)) -> ystep y y' (YMsg o keep) (RC e os)
| ys_svc m o keep q v os : y_q y = IInd m :: q -> svc_step (y_s y) (SvInd m (o_j o) (o_t1 o)) = Some (v, os) ->
    y' = mkY (y_t y) (y_c y) v (q ++ kept keep (s_msgs os)) -> ystep y y' (YMsg o keep) (RS (SvInd m (o_j o) (o_t1 o)) os).

Lemma y_cases y e y' r : y_enabled y e = true -> y_step y e = Some (y', r) -> ystep y y' e r.
Proof.
  intros He Hs. destruct e as [e keep|o keep]; unfold y_step in Hs.
  - unfold y_tsrv in Hs. destruct (tsrv_step (y_t y) e) as [[v os]|] eqn:E; [|discriminate Hs]. apply some2 in Hs as (<- & <-). eapply ys_net; eauto.
  - destruct (y_q y) as [|m q] eqn:Eq; [discriminate Hs|]. unfold y_deliver, y_tsrv, y_csrv, y_svc in Hs.
    destruct m as [[| |] x|c ch|k x|c|x|x|h];
      match type of Hs with match ?s with _ => _ end = _ => destruct s as [[v os]|] eqn:E; [|discriminate Hs] end; apply some2 in Hs as (<- & <-);
      solve [eapply ys_chan; eauto; reflexivity|eapply ys_tx; eauto|eapply ys_rel; eauto|eapply ys_svc; eauto].
Qed.

(** The event of the layer is one its theorems are about. *)
Lemma net_ok y e keep : y_enabled y (YNet e keep) = true -> tsrv_enabled (y_t y) e = true /\ from_queue e /\
  match e with EvMsg _ _ _ | EvRelease _ => False | _ => True end.
Proof. destruct e; cbn; try discriminate; auto. Qed.
Lemma c_event_ok m e o : oracle_ok o -> iok m ->
    match m with
    | IFwd KOpn x => e = CvOpen x (o_j o) (o_rnd o) (o_t1 o) (o_t2 o)
    | IFwd KClo x => e = CvClose x (o_j o) (o_t1 o)
    | IFwd KMsg x => e = CvMsg x (o_j o)
    | IRelInd conn ch => e = CvRelInd conn ch
    | IAssoc h => e = CvAssoc h
    | ISend x => e = CvSend x
    | _ => False
    end -> cev_ok e /\ c_from_queue e.
Proof.
  intros (O1 & O2 & O3 & O4) Hm H. destruct m as [[| |] x|c ch|k x|c|x|x|h]; try contradiction; subst e; cbn [cev_ok c_from_queue iok] in *.
  - destruct Hm as (A & B & C & D). split; [auto|]. split; [auto|]. apply C. discriminate.
  - destruct Hm as (A & B & C & D). split; [|exact B]. split; [exact A|]. split; [exact O1|]. split; [exact O2|]. split; assumption.
  - destruct Hm as (A & B & C & D). split; [auto|]. split; [auto|]. apply C. discriminate.
  - destruct Hm. auto.
  - tauto.
  - tauto.
Qed.

Lemma iok_app q ms keep : Forall iok q -> (forall m, In m ms -> iok m) -> Forall iok (q ++ kept keep ms).
Proof. intros A B. apply Forall_app. split; [auto|]. apply Forall_forall. intros m Hm. apply B. now apply kept_in in Hm. Qed.

Lemma y_inv_step b0 ini y tr e y' r : YInv b0 ini y tr -> yev_ok e -> y_enabled y e = true -> y_step y e = Some (y', r) -> YInv b0 ini y' (tr ++ [r]).
Proof.
  intros [HT HC HS HN HQ HCh HSe] Hev Hen Hs. pose proof (y_cases _ _ _ _ Hen Hs) as F.
  destruct F as [e keep v os He Hst ->|k m o keep q v os Eq Hst ->|c o keep q v os Eq Hst ->|m e o keep q v os Eq Hm Hst ->|m o keep q v os Eq Hst ->].
  - destruct (net_ok _ _ _ He) as (He1 & He2 & _). constructor; rewrite ?tproj_snoc, ?cproj_snoc, ?sproj_snoc, ?app_nil_r; cbn [y_t y_c y_s y_q]; auto.
    + econstructor; eauto. + apply iok_app; [auto|]. intros m Hm. eapply t_wf; eauto. + now apply chans_step.
  - rewrite Eq in HQ. apply Forall_cons_iff in HQ as [Hm HQ]. destruct Hm as (M1 & M2 & M3).
    constructor; rewrite ?tproj_snoc, ?cproj_snoc, ?sproj_snoc, ?app_nil_r; cbn [y_t y_c y_s y_q]; auto.
    + econstructor; eauto. + apply iok_app; [auto|]. intros x Hx. eapply t_wf; eauto; first [exact M1|reflexivity|split; assumption].
    + apply chans_step; [auto|]. split; auto.
  - rewrite Eq in HQ. apply Forall_cons_iff in HQ as [Hm HQ]. assert (Hu : tev_ok (EvRelease c)) by (cbn in *; auto).
    constructor; rewrite ?tproj_snoc, ?cproj_snoc, ?sproj_snoc, ?app_nil_r; cbn [y_t y_c y_s y_q]; auto.
    + econstructor; eauto. + apply iok_app; [auto|]. intros x Hx. eapply t_wf; eauto; first [exact Hu|reflexivity|exact Hm].
    + apply chans_step; [auto|]. exact Hm.
  - rewrite Eq in HQ. apply Forall_cons_iff in HQ as [Hi HQ]. destruct (c_event_ok _ _ _ Hev Hi Hm) as [Hok Hfq].
    constructor; rewrite ?tproj_snoc, ?cproj_snoc, ?sproj_snoc, ?app_nil_r; cbn [y_t y_c y_s y_q]; auto.
    + econstructor; eauto. + apply iok_app; [auto|]. intros x Hx. eapply c_wf; eauto. + now apply sess_step.
  - rewrite Eq in HQ. apply Forall_cons_iff in HQ as [Hi HQ]. destruct Hev as (O1 & O2 & O3 & O4). destruct Hi as (I1 & I2).
    assert (Hok : sev_ok (SvInd m (o_j o) (o_t1 o))) by (cbn; auto).
    constructor; rewrite ?tproj_snoc, ?cproj_snoc, ?sproj_snoc, ?app_nil_r; cbn [y_t y_c y_s y_q]; auto.
    + econstructor; eauto.
    + rewrite running_snoc. cbn. exact HN.
    + apply iok_app; [auto|]. intros x Hx. destruct (ind_served _ _ _ _ _ _ _ HS Hok Hst) as [(E & _)|(_ & [(qq & _ & Hsv & _)|[(_ & ->)|(_ & ->)]])].
      * congruence.
      * destruct (proj1 (running_iff _ _ HS) HN) as (sv & Esv). rewrite Esv in HS.
        eapply served_wf; [exact Hsv| | |exact Hx].
        -- intros sid Hl. eapply UaServiceRuns.live_range; [|exact Hl]. apply sreach_inv. exact HS.
        -- destruct I1 as (H1 & _). cbn [em_hdr em_len em_data]. unfold iok, emsg_ok. cbn [em_hdr em_len em_data length].
           split; [split; [exact H1|split; [lia|split; [constructor|cbn; lia]]]|exact I2].
      * destruct Hx. * destruct Hx.
Qed.

Lemma y_new_parts b0 ini y : y_new b0 ini = Some y -> exists t c s, tsrv_new maxConn b0 = Some t /\ csrv_new ini = Some c /\ svc_new = Some s /\ y = mkY t c (Some s) [].
Proof.
  unfold y_new. generalize (tsrv_new maxConn b0) (csrv_new ini) svc_new. intros [t|] [c|] [s|] H; try discriminate H.
  exists t, c, s. injection H as <-. auto.
Qed.
Lemma svc_init v : svc_new = Some v -> svc_step None SvInit = Some (Some v, [SInitRsp]).
Proof. unfold svc_step. generalize svc_new. intros o ->. reflexivity. Qed.

Lemma y_reach_inv b0 ini y tr : yreach b0 ini y tr -> YInv b0 ini y tr.
Proof.
  intros H. induction H as [y Hb Hi Hn|y tr e y' r H IH Hev Hen Hs]; [|eapply y_inv_step; eauto].
  apply y_new_parts in Hn as (t & c & s & Et & Ec & Es & ->). apply svc_init in Es.
  constructor; cbn [y_t y_c y_s y_q].
  - apply ur_new; assumption. - apply cr_new; assumption.
  - exact (sr_step None [] SvInit (Some s) [SInitRsp] sr_new I Es).
  - reflexivity. - constructor.
  - intros uid ch E. discriminate E. - intros uid ch E. discriminate E.
Qed.
