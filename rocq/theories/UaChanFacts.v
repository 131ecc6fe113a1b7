(** Consequences of the invariant of the secure channel layer. *)
From Verif Require Import Base QueueModel QueueSpec QueueProofs PoolModel PoolSpec PoolProofs EntProofs ModbusCodecModel ModbusCodecSpec
  ModbusClientModel ModbusClientProofs UaCodecModel UaCodecSpec UaCodecProofs UaCodecLocal UaTcpModel UaTcpSpec UaTcpProofs UaTcpRuns UaTcpFacts
  UaChanModel UaChanSpec UaChanProofs UaChanRuns.
Local Open Scope Z_scope.

Lemma CO_open c uid tr : CO c (cview_of uid tr) -> copen uid tr ->
  h_est c = true /\ h_conn c = Some (cconn uid tr) /\ h_tok c = ctoken uid tr /\ h_rx c = clast uid tr /\ h_sess c = csession uid tr /\
  h_tx c = (cstart uid tr + Z.of_nat (csent uid tr)) mod 4294967296 /\ is_u32 (ctoken uid tr) /\ is_u32 (clast uid tr).
Proof.
  intros H Ho. pose proof (proj1 (copen_iff _ _ _ H) Ho) as He. unfold CO in H. rewrite He in H.
  destruct H as (A & B & C & D & F & G & K & L). rewrite C in K. rewrite D in L.
  repeat (split; [assumption|]). exact L.
Qed.
Lemma CO_shut c uid tr : CO c (cview_of uid tr) -> ~ copen uid tr -> h_est c = false.
Proof. intros H Ho. destruct (h_est c) eqn:E; [|auto]. exfalso. apply Ho. now apply (copen_iff _ _ _ H). Qed.

Lemma sound_iff c uid tr m j : CO c (cview_of uid tr) -> copen uid tr -> sound c m j = true <-> acceptable uid tr m j.
Proof.
  intros HC Ho. destruct (CO_open _ _ _ HC Ho) as (_ & B & C & D & _). unfold sound, own_conn, acceptable. rewrite B, C, D. unfold u32.
  rewrite !andb_true_iff, !Z.eqb_eq. intuition congruence.
Qed.
Lemma copen_dec uid tr : {copen uid tr} + {~ copen uid tr}.
Proof. unfold copen. apply Nat.eq_dec. Qed.
Lemma acceptable_dec uid tr m j : {acceptable uid tr m j} + {~ acceptable uid tr m j}.
Proof.
  unfold acceptable. destruct (Z.eq_dec (um_conn m) (cconn uid tr)); [|right; tauto].
  destruct (Z.eq_dec (le_at 0 (octets m j)) (ctoken uid tr)); [|right; tauto].
  destruct (Z.eq_dec (le_at 4 (octets m j)) ((clast uid tr + 1) mod 4294967296)); [left|right]; tauto.
Qed.

(** What a channel may send for the services. *)
Definition sendable (uid : Z) (tr : ctrace) (m : emsg) : Prop :=
  e_conn (em_hdr m) = cconn uid tr /\ (csession uid tr = None \/ csession uid tr = Some (e_sess (em_hdr m))).
Lemma sendable_dec uid tr m : {sendable uid tr m} + {~ sendable uid tr m}.
Proof.
  unfold sendable. destruct (Z.eq_dec (e_conn (em_hdr m)) (cconn uid tr)); [|right; tauto].
  destruct (csession uid tr) as [s|]; [|left; tauto]. destruct (Z.eq_dec s (e_sess (em_hdr m))); [left|right]; [subst; tauto|].
  intros (_ & [H|H]); congruence.
Qed.
Lemma may_iff c uid tr m : CO c (cview_of uid tr) -> copen uid tr -> may_send c m = true <-> sendable uid tr m.
Proof.
  intros HC Ho. destruct (CO_open _ _ _ HC Ho) as (_ & B & C & D & S & _). unfold may_send, own_conn, sendable. rewrite B, S.
  rewrite andb_true_iff, Z.eqb_eq. destruct (csession uid tr) as [s|]; rewrite ?Z.eqb_eq; intuition congruence.
Qed.
Lemma bool_off (b : bool) (P : Prop) : (b = true <-> P) -> ~ P -> b = false.
Proof. destruct b; [|auto]. intros H N. exfalso. tauto. Qed.

(** * The effects of every event *)
Section Facts.
Variables (ini : list (Z * Z)) (v : csrv) (tr : ctrace).
Hypothesis HR : creach ini v tr.

Lemma msg_fact m j : cev_ok (CvMsg m j) -> 1 <= um_chan m <= 32 ->
  (~ copen (um_chan m) tr -> exists v', csrv_step v (CvMsg m j) = Some (v', [])) /\
  (copen (um_chan m) tr -> ~ acceptable (um_chan m) tr m j ->
     exists v', csrv_step v (CvMsg m j) = Some (v', [CRelReq (um_conn m); CFree (um_chan m)])) /\
  (copen (um_chan m) tr -> acceptable (um_chan m) tr m j -> um_len m <= 4064 ->
     exists v', csrv_step v (CvMsg m j) = Some (v', [CInd (ind_of (um_chan m) (csession (um_chan m) tr) m j)])) /\
  (copen (um_chan m) tr -> acceptable (um_chan m) tr m j -> 4064 < um_len m -> csrv_step v (CvMsg m j) = None).
Proof.
  intros He Hu. destruct (on_ok _ _ _ _ (reach_inv _ _ _ HR) He eq_refl Hu) as (c & _ & HC & H). cbn [hand] in H.
  pose proof He as [Hm Hj]. destruct (copen_dec (um_chan m) tr) as [Ho|Ho].
  - destruct (CO_open _ _ _ HC Ho) as (E & B & C & D & S & _). rewrite (c_msg_eq _ _ _ _ Hm Hj E) in H.
    pose proof (sound_iff _ _ _ m j HC Ho) as I. rewrite S in H.
    split; [tauto|]. split; [|split].
    + intros _ Ha. rewrite (bool_off _ _ I Ha) in H. destruct H as ((v' & H & _) & _). eauto.
    + intros _ Ha Hl. rewrite (proj2 I Ha) in H. destruct (Z.leb_spec (um_len m) 4064); [|lia]. destruct H as ((v' & H & _) & _). eauto.
    + intros _ Ha Hl. rewrite (proj2 I Ha) in H. destruct (Z.leb_spec (um_len m) 4064); [lia|]. exact H.
  - unfold c_msg in H. rewrite (CO_shut _ _ _ HC Ho) in H. cbn [negb] in H. destruct H as ((v' & H & _) & _).
    split; [eauto|]. split; [tauto|]. split; tauto.
Qed.

Lemma send_fact m : cev_ok (CvSend m) -> 1 <= e_chan (em_hdr m) <= 32 ->
  let uid := e_chan (em_hdr m) in
  (~ copen uid tr \/ ~ sendable uid tr m -> exists v', csrv_step v (CvSend m) = Some (v', [])) /\
  (copen uid tr -> sendable uid tr m -> em_len m <= 4060 ->
     exists v', csrv_step v (CvSend m) = Some (v', [CTx KMsg (rsp_of (e_conn (em_hdr m)) uid
        (msg_rsp (ctoken uid tr) ((cstart uid tr + Z.of_nat (csent uid tr)) mod 4294967296) (e_req (em_hdr m)) (body_of m)))])) /\
  (copen uid tr -> sendable uid tr m -> 4060 < em_len m -> csrv_step v (CvSend m) = None).
Proof.
  intros He Hu uid. destruct (on_ok _ _ _ _ (reach_inv _ _ _ HR) He eq_refl Hu) as (c & _ & HC & H). cbn [hand] in H. fold uid in H, HC.
  destruct (copen_dec uid tr) as [Ho|Ho].
  - destruct (CO_open _ _ _ HC Ho) as (E & B & C & D & S & G & _). rewrite (c_send_eq _ _ _ He E) in H.
    pose proof (may_iff _ _ _ m HC Ho) as I. rewrite C, G in H.
    split; [|split].
    + intros [X|Ha]; [tauto|]. rewrite (bool_off _ _ I Ha) in H. destruct H as ((v' & H & _) & _). eauto.
    + intros _ Ha Hl. rewrite (proj2 I Ha) in H. destruct (Z.leb_spec (em_len m) 4060); [|lia]. destruct H as ((v' & H & _) & _). eauto.
    + intros _ Ha Hl. rewrite (proj2 I Ha) in H. destruct (Z.leb_spec (em_len m) 4060); [lia|]. exact H.
  - unfold c_send in H. rewrite (CO_shut _ _ _ HC Ho) in H. cbn [negb] in H. destruct H as ((v' & H & _) & _).
    split; [eauto|]. split; tauto.
Qed.

Definition close_dec (m : umsg) (j : list Z) : dres (cont closereq) :=
  dec_cont dec_closereq (cont_new 452 closereq0) (mkSdu 12 (Z.to_nat (um_len m)) (octets m j)).
Lemma close_fact m j now : cev_ok (CvClose m j now) -> 1 <= um_chan m <= 32 ->
  let uid := um_chan m in
  (~ copen uid tr -> exists v', csrv_step v (CvClose m j now) = Some (v', [])) /\
  (copen uid tr -> ~ acceptable uid tr m j -> exists v', csrv_step v (CvClose m j now) = Some (v', [CRelReq (um_conn m); CFree uid])) /\
  (copen uid tr -> acceptable uid tr m j ->
     match close_dec m j with
     | DOk r _ => exists v', csrv_step v (CvClose m j now) = Some (v',
         [CTx KClo (rsp_of (um_conn m) uid (close_rsp (ctoken uid tr) ((cstart uid tr + Z.of_nat (csent uid tr)) mod 4294967296)
            (le_at 8 (octets m j)) (rq_handle (cq_hdr (co_msg r))) now)); CRelReq (um_conn m); CFree uid])
     | DThrow => exists v', csrv_step v (CvClose m j now) = Some (v', [CThrow])
     | _ => csrv_step v (CvClose m j now) = None
     end).
Proof.
  intros He Hu uid. destruct (on_ok _ _ _ _ (reach_inv _ _ _ HR) He eq_refl Hu) as (c & _ & HC & H). cbn [hand] in H. fold uid in H, HC.
  pose proof He as (Hm & Hj & _). destruct (copen_dec uid tr) as [Ho|Ho].
  - destruct (CO_open _ _ _ HC Ho) as (E & B & C & D & S & G & _). rewrite (c_close_eq _ _ _ _ _ Hm Hj E) in H.
    pose proof (sound_iff _ _ _ m j HC Ho) as I. rewrite C, G in H.
    split; [tauto|]. split.
    + intros _ Ha. rewrite (bool_off _ _ I Ha) in H. destruct H as ((v' & H & _) & _). eauto.
    + intros _ Ha. rewrite (proj2 I Ha) in H. unfold close_dec. destruct (dec_cont dec_closereq _ _); try exact H; destruct H as ((v' & H & _) & _); eauto.
  - unfold c_close in H. rewrite (CO_shut _ _ _ HC Ho) in H. cbn [negb] in H. destruct H as ((v' & H & _) & _).
    split; [eauto|]. split; tauto.
Qed.

Lemma assoc_fact h : cev_ok (CvAssoc h) -> 1 <= e_chan h <= 32 -> exists v', csrv_step v (CvAssoc h) = Some (v', []).
Proof.
  intros He Hu. destruct (on_ok _ _ _ _ (reach_inv _ _ _ HR) He eq_refl Hu) as (c & _ & HC & H). cbn [hand] in H.
  destruct H as ((v' & H & _) & _). eauto.
Qed.
Lemma relind_fact conn ch : cev_ok (CvRelInd conn ch) -> 1 <= ch <= 32 ->
  (copen ch tr -> exists v', csrv_step v (CvRelInd conn ch) = Some (v', [CFree ch])) /\
  (~ copen ch tr -> exists v', csrv_step v (CvRelInd conn ch) = Some (v', [])).
Proof.
  intros He Hu. destruct (on_ok _ _ _ _ (reach_inv _ _ _ HR) He eq_refl Hu) as (c & _ & HC & H). cbn [hand] in H. unfold c_relind in H.
  split; intros Ho.
  - destruct (CO_open _ _ _ HC Ho) as (E & _). rewrite E in H. destruct H as ((v' & H & _) & _). eauto.
  - rewrite (CO_shut _ _ _ HC Ho) in H. destruct H as ((v' & H & _) & _). eauto.
Qed.
Lemma open_fact m j rnd t1 t2 : cev_ok (CvOpen m j rnd t1 t2) ->
  (exists v' os, csrv_step v (CvOpen m j rnd t1 t2) = Some (v', os) /\ opening tr (copened tr + ctotal cbad tr) m j rnd t1 t2 os) \/
  (csrv_step v (CvOpen m j rnd t1 t2) = None /\ (copened tr + ctotal cbad tr < 32)%nat /\
     (dec_open_msg (mkSdu 0 (Z.to_nat (um_len m)) (octets m j)) = DAbort \/ dec_open_msg (mkSdu 0 (Z.to_nat (um_len m)) (octets m j)) = DOob)).
Proof.
  intros He. pose proof (reach_inv _ _ _ HR) as HI. rewrite (opened_eq _ _ HI).
  destruct (open_ok _ _ _ _ _ _ _ HI He) as [(v' & os & A & _ & B)|X]; [left; eauto|right; exact X].
Qed.
Lemma out_fact e uid : cev_ok e -> cev_chan e = Some uid -> ~ 1 <= uid <= 32 -> csrv_step v e = None.
Proof. intros He Hc Hn. eapply on_out; eauto using reach_inv, ev_u32. Qed.
Lemma room_fact : (copened tr + ctotal cbad tr <= 32)%nat.
Proof.
  pose proof (reach_inv _ _ _ HR) as HI. rewrite (opened_eq _ _ HI). destruct HI as [_ O _]. destruct c32 as (C1 & C2 & C3).
  exact (own_bound _ _ _ C1 C2 _ _ _ O).
Qed.
End Facts.

(** Everything that can come out of a step. *)
Inductive cfact (tr : ctrace) : cev -> list cout -> Prop :=
| cf_open m j rnd t1 t2 os : opening tr (copened tr + ctotal cbad tr) m j rnd t1 t2 os -> cfact tr (CvOpen m j rnd t1 t2) os
| cf_shut e uid : cev_chan e = Some uid -> 1 <= uid <= 32 -> ~ copen uid tr -> cfact tr e []
| cf_bad m j e : (e = CvMsg m j \/ exists now, e = CvClose m j now) -> 1 <= um_chan m <= 32 -> copen (um_chan m) tr ->
    ~ acceptable (um_chan m) tr m j -> cfact tr e [CRelReq (um_conn m); CFree (um_chan m)]
| cf_msg m j : 1 <= um_chan m <= 32 -> copen (um_chan m) tr -> acceptable (um_chan m) tr m j -> um_len m <= 4064 ->
    cfact tr (CvMsg m j) [CInd (ind_of (um_chan m) (csession (um_chan m) tr) m j)]
| cf_refuse m : 1 <= e_chan (em_hdr m) <= 32 -> copen (e_chan (em_hdr m)) tr -> ~ sendable (e_chan (em_hdr m)) tr m -> cfact tr (CvSend m) []
| cf_send m uid : uid = e_chan (em_hdr m) -> 1 <= uid <= 32 -> copen uid tr -> sendable uid tr m -> em_len m <= 4060 ->
    cfact tr (CvSend m) [CTx KMsg (rsp_of (e_conn (em_hdr m)) uid
        (msg_rsp (ctoken uid tr) ((cstart uid tr + Z.of_nat (csent uid tr)) mod 4294967296) (e_req (em_hdr m)) (body_of m)))]
| cf_close m j now uid r b : uid = um_chan m -> 1 <= uid <= 32 -> copen uid tr -> acceptable uid tr m j -> close_dec m j = DOk r b ->
    cfact tr (CvClose m j now)
      [CTx KClo (rsp_of (um_conn m) uid (close_rsp (ctoken uid tr) ((cstart uid tr + Z.of_nat (csent uid tr)) mod 4294967296)
            (le_at 8 (octets m j)) (rq_handle (cq_hdr (co_msg r))) now)); CRelReq (um_conn m); CFree uid]
| cf_throw m j now : 1 <= um_chan m <= 32 -> copen (um_chan m) tr -> acceptable (um_chan m) tr m j -> close_dec m j = DThrow ->
    cfact tr (CvClose m j now) [CThrow]
| cf_assoc h : 1 <= e_chan h <= 32 -> copen (e_chan h) tr -> cfact tr (CvAssoc h) []
| cf_rel conn ch : 1 <= ch <= 32 -> copen ch tr -> cfact tr (CvRelInd conn ch) [CFree ch].

Ltac seteq H E := let X := fresh in destruct H as (? & X); rewrite E in X; apply some2 in X as (_ & ->).
Lemma step_fact ini v tr e v' os : creach ini v tr -> cev_ok e -> csrv_step v e = Some (v', os) -> cfact tr e os.
Proof.
  intros HR He Hs. destruct (cev_chan e) as [uid|] eqn:Ec.
  - assert (D : 1 <= uid <= 32 \/ ~ 1 <= uid <= 32) by lia. destruct D as [D|D]; [|rewrite (out_fact _ _ _ HR _ _ He Ec D) in Hs; discriminate].
    destruct e as [m j rnd t1 t2|m j now|m j|h|m|conn ch]; cbn [cev_chan] in Ec; try discriminate; injection Ec as <-.
    + destruct (close_fact _ _ _ HR m j now He D) as (A & B & C). destruct (copen_dec (um_chan m) tr) as [Ho|Ho].
      * destruct (acceptable_dec (um_chan m) tr m j) as [Ha|Ha].
        -- specialize (C Ho Ha). destruct (close_dec m j) as [r b| | |] eqn:Ed; try congruence; seteq C Hs.
           ++ eapply cf_close; eauto. ++ eapply cf_throw; eauto.
        -- specialize (B Ho Ha). seteq B Hs. apply (cf_bad tr m j); eauto.
      * specialize (A Ho). seteq A Hs. eapply cf_shut; eauto. reflexivity.
    + destruct (msg_fact _ _ _ HR m j He D) as (A & B & C & C'). destruct (copen_dec (um_chan m) tr) as [Ho|Ho].
      * destruct (acceptable_dec (um_chan m) tr m j) as [Ha|Ha].
        -- assert (L : um_len m <= 4064 \/ 4064 < um_len m) by lia. destruct L as [L|L].
           ++ specialize (C Ho Ha L). seteq C Hs. now apply cf_msg. ++ rewrite (C' Ho Ha L) in Hs. discriminate.
        -- specialize (B Ho Ha). seteq B Hs. apply (cf_bad tr m j); eauto.
      * specialize (A Ho). seteq A Hs. eapply cf_shut; eauto. reflexivity.
    + pose proof (assoc_fact _ _ _ HR h He D) as A. seteq A Hs. destruct (copen_dec (e_chan h) tr) as [Ho|Ho].
      * now apply cf_assoc. * eapply cf_shut; eauto. reflexivity.
    + destruct (send_fact _ _ _ HR m He D) as (A & B & C). destruct (copen_dec (e_chan (em_hdr m)) tr) as [Ho|Ho].
      * destruct (sendable_dec (e_chan (em_hdr m)) tr m) as [Ha|Ha].
        -- assert (L : em_len m <= 4060 \/ 4060 < em_len m) by lia. destruct L as [L|L].
           ++ specialize (B Ho Ha L). seteq B Hs. now apply cf_send. ++ rewrite (C Ho Ha L) in Hs. discriminate.
        -- specialize (A (or_intror Ha)). seteq A Hs. now apply cf_refuse.
      * specialize (A (or_introl Ho)). seteq A Hs. eapply cf_shut; eauto. reflexivity.
    + destruct (relind_fact _ _ _ HR conn ch He D) as (A & B). destruct (copen_dec ch tr) as [Ho|Ho].
      * specialize (A Ho). seteq A Hs. now apply cf_rel. * specialize (B Ho). seteq B Hs. eapply cf_shut; eauto. reflexivity.
  - destruct e as [m j rnd t1 t2|m j now|m j|h|m|conn ch]; try discriminate Ec.
    destruct (open_fact _ _ _ HR _ _ _ _ _ He) as [(v2 & os2 & E & X)|(E & _)]; rewrite Hs in E; [|discriminate].
    apply some2 in E as (_ & ->). now constructor.
Qed.

(** * One opening *)
Definition ntaken (uid : Z) (tr : ctrace) : nat := length (filter (fun x => match taken uid x with Some _ => true | None => false end) tr).
Definition ntx (uid : Z) (tr : ctrace) : nat := ctotal (fun x => ccount (is_tx uid) (snd x)) tr.
Definition unfreed (uid : Z) (tr : ctrace) : Prop := forall x, In x tr -> ~ In (CFree uid) (snd x).

Lemma ntaken_snoc uid tr x : ntaken uid (tr ++ [x]) = (ntaken uid tr + match taken uid x with Some _ => 1 | None => 0 end)%nat.
Proof. unfold ntaken. rewrite filter_app, app_length. cbn. destruct (taken uid x); cbn; lia. Qed.
Lemma ntx_snoc uid tr x : ntx uid (tr ++ [x]) = (ntx uid tr + ccount (is_tx uid) (snd x))%nat.
Proof. apply ctotal_snoc. Qed.

Lemma free_none uid os : ~ In (CFree uid) os -> ccount (is_cfree uid) os = 0%nat.
Proof.
  induction os as [|o os IH]; intros H; [reflexivity|]. unfold ccount in *. cbn [filter].
  assert (X : is_cfree uid o = false).
  { destruct o; try reflexivity. cbn. apply Z.eqb_neq. intros ->. apply H. now left. }
  rewrite X. apply IH. intros Hi. apply H. now right.
Qed.

Definition same_opening (uid : Z) (tr tr2 : ctrace) : Prop :=
  copen uid (tr ++ tr2) /\ cconn uid (tr ++ tr2) = cconn uid tr /\ ctoken uid (tr ++ tr2) = ctoken uid tr /\ cfreed uid (tr ++ tr2) = cfreed uid tr /\
  clast uid (tr ++ tr2) = (clast uid tr + Z.of_nat (ntaken uid tr2)) mod 4294967296 /\ csent uid (tr ++ tr2) = (csent uid tr + ntx uid tr2)%nat.

Lemma open_u32 ini v tr uid : creach ini v tr -> copen uid tr -> 1 <= uid <= 32 /\ is_u32 (clast uid tr) /\ is_u32 (ctoken uid tr).
Proof.
  intros HR Ho. assert (D : 1 <= uid <= 32 \/ ~ 1 <= uid <= 32) by lia. destruct D as [D|D].
  - destruct (chan_in _ _ _ (reach_inv _ _ _ HR) D) as (c & _ & HC & _). destruct (CO_open _ _ _ HC Ho) as (_ & _ & _ & _ & _ & _ & A & B). auto.
  - exfalso. enough (w_opens (cview_of uid tr) = 0%nat) by (unfold copen in Ho; lia). clear Ho.
    induction HR as [v Hm Hn|v tr e v' os HR IH Hev Hs]; [reflexivity|]. rewrite cview_snoc.
    assert (X : exists t, t <> uid /\ Forall (cabout t) os /\ forall s, cev_chan e = Some s -> s = t).
    { pose proof (step_fact _ _ _ _ _ _ HR Hev Hs) as F.
      destruct F as [m j rnd t1 t2 os Hop|e t Ec Ht Hn|m j e Hor Ht|m j Ht|m Ht|m t Et Ht|m j now t r b Et Ht|m j now Ht|h Ht|conn ch Ht].
      - destruct Hop as [Hf|t Hf Ht|t q r b Hf Ht]; [exists (uid + 1)|exists t|exists t]; (split; [lia|]; split; [repeat constructor|discriminate]).
      - exists t. split; [intros ->; tauto|]. split; [constructor|congruence].
      - exists (um_chan m). split; [intros X; rewrite X in Ht; tauto|]. split; [repeat constructor|].
        intros s Es. destruct Hor as [->|[now ->]]; cbn in Es; congruence.
      - exists (um_chan m). split; [intros X; rewrite X in Ht; tauto|]. split; [repeat constructor|]. cbn. congruence.
      - exists (e_chan (em_hdr m)). split; [intros X; rewrite X in Ht; tauto|]. split; [repeat constructor|]. cbn. congruence.
      - exists t. split; [intros ->; tauto|]. split; [repeat constructor|cbn; congruence].
      - exists t. split; [intros ->; tauto|]. split; [repeat constructor|cbn; congruence].
      - exists (um_chan m). split; [intros X; rewrite X in Ht; tauto|]. split; [repeat constructor|]. cbn. congruence.
      - exists (e_chan h). split; [intros X; rewrite X in Ht; tauto|]. split; [repeat constructor|]. cbn. congruence.
      - exists ch. split; [intros X; rewrite X in Ht; tauto|]. split; [repeat constructor|]. cbn. congruence. }
    destruct X as (t & A & B & C). rewrite (cview_other uid _ e os t); auto.
Qed.

Lemma opening_step ini v tr e v' os uid : creach ini v tr -> cev_ok e -> csrv_step v e = Some (v', os) -> copen uid tr -> ~ In (CFree uid) os ->
  same_opening uid tr [(e, os)].
Proof.
  intros HR He Hs Ho Hf. pose proof (step_fact _ _ _ _ _ _ HR He Hs) as F.
  destruct (open_u32 _ _ _ _ HR Ho) as (Hu & Hin & _). unfold is_u32 in Hin.
  unfold same_opening, copen, cconn, ctoken, cfreed, clast, csent in *. rewrite cview_snoc.
  change [(e, os)] with ([] ++ [(e, os)]). rewrite ntaken_snoc, ntx_snoc. unfold ntaken, ntx, ctotal. cbn [filter length map list_sum fold_right Nat.add snd].
  pose proof (free_none _ _ Hf) as Z0. unfold cview_next. rewrite Z0.
  assert (M : forall z, 0 <= z < 4294967296 -> z = (z + Z.of_nat 0) mod 4294967296) by (intros; lia).
  destruct F as [m j rnd t1 t2 os Hop|e t Ec Ht Hn|m j e Hor Ht|m j Ht Hop Hac|m Ht|m t Et Ht|m j now t r b Et Ht|m j now Ht Hop Hac|h Ht|conn ch Ht].
  - destruct Hop as [Hf'|t Hf' Ht|t q r b Hf' Ht Hno].
    + cbn. rewrite !Nat.add_0_r. auto 10.
    + cbn. rewrite !Nat.add_0_r. auto 10.
    + cbn [taken ccount filter is_tx rsp_of um_chan]. destruct (Z.eqb_spec t uid) as [->|_]; [exfalso; apply Hno; exact Ho|].
      cbn [length ccount]. unfold ccount. cbn [filter is_tx rsp_of um_chan].
      destruct (Z.eqb_spec t uid) as [->|_]; [exfalso; apply Hno; exact Ho|]. cbn [length].
      cbn [w_opens w_frees w_conn w_tok w_in w_sent w_sess]. rewrite !Nat.add_0_r. auto 10.
  - destruct e as [m j rnd t1 t2|m j now|m j|h|m|conn ch]; cbn in Ec; try discriminate; injection Ec as Et; cbn; try (rewrite !Nat.add_0_r; now auto 10).
    rewrite Et. destruct (Z.eqb_spec t uid) as [->|_]; [exfalso; apply Hn; exact Ho|]. cbn. rewrite !Nat.add_0_r. auto 10.
  - destruct Hor as [->|[now ->]]; cbn; rewrite !Nat.add_0_r; auto 10.
  - cbn. destruct (Z.eqb_spec (um_chan m) uid) as [E|_]; rewrite !Nat.add_0_r; [|auto 10].
    destruct Hac as (_ & _ & Hac). rewrite E in Hac. auto 10.
  - cbn. rewrite !Nat.add_0_r. auto 10.
  - cbn. destruct (t =? uid); cbn; rewrite !Nat.add_0_r; auto 10.
  - cbn [taken]. unfold ccount. cbn [filter is_tx rsp_of um_chan]. cbn [w_opens w_frees w_conn w_tok w_in w_sent w_sess]. rewrite Nat.add_0_r.
    auto 10.
  - cbn. destruct (Z.eqb_spec (um_chan m) uid) as [E|_]; rewrite !Nat.add_0_r; [|auto 10].
    destruct Hac as (_ & _ & Hac). rewrite E in Hac. auto 10.
  - cbn. destruct (_ && _ && _); cbn; rewrite !Nat.add_0_r; auto 10.
  - cbn. rewrite !Nat.add_0_r. auto 10.
Qed.

Lemma opening_run ini uid tr tr2 : forall v, creach ini v (tr ++ tr2) -> copen uid tr -> unfreed uid tr2 -> same_opening uid tr tr2.
Proof.
  induction tr2 as [|[e os] tr2 IH] using rev_ind; intros v HR Ho Hf.
  - rewrite app_nil_r in HR. destruct (open_u32 _ _ _ _ HR Ho) as (_ & Hin & _). unfold is_u32 in Hin.
    unfold same_opening. rewrite app_nil_r. unfold ntaken, ntx, ctotal. cbn [filter length map list_sum fold_right].
    split; [auto|]. split; [auto|]. split; [auto|]. split; [auto|]. split; lia.
  - rewrite app_assoc in HR. destruct (reach_split _ _ _ HR (tr ++ tr2) e os [] eq_refl) as (v1 & v2 & R1 & He & Hs & R2).
    assert (Hf' : unfreed uid tr2) by (intros x Hx; apply Hf, in_or_app; auto).
    destruct (IH v1 R1 Ho Hf') as (A & B & C & D & F & G).
    assert (Hn : ~ In (CFree uid) os) by (apply (Hf (e, os)), in_or_app; right; now left).
    destruct (opening_step _ _ _ _ _ _ uid R1 He Hs A Hn) as (A' & B' & C' & D' & F' & G').
    unfold same_opening. rewrite app_assoc. split; [auto|]. split; [congruence|]. split; [congruence|]. split; [congruence|].
    rewrite F', G', F, G, ntaken_snoc, ntx_snoc. unfold ntaken, ntx, ctotal. cbn [filter length map list_sum fold_right snd].
    split; [|lia]. destruct (taken uid (e, os)); cbn [length]; lia.
Qed.

(** * Checked runs *)
Fixpoint crun (v : csrv) (es : list cev) : option (csrv * ctrace) :=
  match es with
  | [] => Some (v, [])
  | e :: r => match csrv_step v e with
              | Some (v1, os) => match crun v1 r with Some (v2, tr) => Some (v2, (e, os) :: tr) | None => None end
              | None => None
              end
  end.
Lemma crun_reach ini es : forall v tr v' tr', creach ini v tr -> Forall cev_ok es -> crun v es = Some (v', tr') -> creach ini v' (tr ++ tr').
Proof.
  induction es as [|e es IH]; intros v tr v' tr' HR Hok H; cbn [crun] in H.
  - apply some2 in H as (<- & <-). now rewrite app_nil_r.
  - destruct (csrv_step v e) as [[v1 os]|] eqn:Es; [|discriminate]. destruct (crun v1 es) as [[v2 tr2]|] eqn:Er; [|discriminate].
    apply some2 in H as (<- & <-). inversion Hok as [|? ? H1 H2]. subst.
    replace (tr ++ (e, os) :: tr2) with ((tr ++ [(e, os)]) ++ tr2) by (rewrite <- app_assoc; reflexivity).
    eapply IH; eauto. econstructor; eauto.
Qed.
Definition cstarted (o : option csrv) (es : list cev) : option (csrv * ctrace) := match o with Some v => crun v es | None => None end.
Definition umsgb (m : umsg) : bool :=
  u32b (um_conn m) && u32b (um_chan m) && ((0 <=? um_chunk m) && (um_chunk m <? 256)) &&
  ((0 <=? um_len m) && (um_len m <=? 4072)) && octetsb (um_data m) && (um_len m <=? Z.of_nat (length (um_data m))).
Definition umemb (j : list Z) : bool := octetsb j && (Z.of_nat (length j) =? 4096).
Definition i64b (z : Z) : bool := (-9223372036854775808 <=? z) && (z <? 9223372036854775808).
Definition ehdrb (h : ehdr) : bool := u32b (e_conn h) && u32b (e_chan h) && u32b (e_req h) && u32b (e_sess h).
Definition emsgb (m : emsg) : bool :=
  ehdrb (em_hdr m) && ((0 <=? em_len m) && (em_len m <=? 4064)) && octetsb (em_data m) && (em_len m <=? Z.of_nat (length (em_data m))).
Definition cev_okb (e : cev) : bool :=
  match e with
  | CvOpen m j rnd t1 t2 => umsgb m && umemb j && ((0 <=? rnd) && (rnd <? 2147483648)) && i64b t1 && i64b t2
  | CvClose m j now => umsgb m && umemb j && i64b now
  | CvMsg m j => umsgb m && umemb j
  | CvAssoc h => ehdrb h
  | CvSend m => emsgb m
  | CvRelInd conn ch => u32b conn && u32b ch
  end.
Lemma u32b_ok z : u32b z = true -> is_u32 z. Proof. unfold u32b, is_u32. lia. Qed.
Lemma i64b_ok z : i64b z = true -> is_i64 z. Proof. unfold i64b, is_i64. lia. Qed.
Lemma umsgb_ok m : umsgb m = true -> umsg_ok m.
Proof.
  unfold umsgb. intros H. repeat (apply andb_prop in H as [H ?]). unfold umsg_ok, is_u32, is_byte, u32b in *.
  repeat match goal with |- _ /\ _ => split end; try lia. now apply octetsb_ok.
Qed.
Lemma umemb_ok j : umemb j = true -> umem_ok j.
Proof. unfold umemb. intros H. apply andb_prop in H as [H1 H2]. split; [lia|now apply octetsb_ok]. Qed.
Lemma ehdrb_ok h : ehdrb h = true -> ehdr_ok h.
Proof. unfold ehdrb. intros H. do 3 (apply andb_prop in H as [H ?]). unfold ehdr_ok. auto using u32b_ok. Qed.
Lemma emsgb_ok m : emsgb m = true -> emsg_ok m.
Proof.
  unfold emsgb. intros H. do 3 (apply andb_prop in H as [H ?]). unfold emsg_ok. split; [now apply ehdrb_ok|].
  repeat match goal with |- _ /\ _ => split end; try lia. now apply octetsb_ok.
Qed.
Lemma cev_okb_ok es : forallb cev_okb es = true -> Forall cev_ok es.
Proof.
  intros H. apply Forall_forall. intros e He. eapply forallb_forall in H; eauto.
  destruct e as [m j rnd t1 t2|m j now|m j|h|m|conn ch]; cbn [cev_ok cev_okb] in *.
  - do 4 (apply andb_prop in H as [H ?]). split; [now apply umsgb_ok|]. split; [now apply umemb_ok|]. split; [lia|]. auto using i64b_ok.
  - do 2 (apply andb_prop in H as [H ?]). auto using umsgb_ok, umemb_ok, i64b_ok.
  - do 1 (apply andb_prop in H as [H ?]). auto using umsgb_ok, umemb_ok.
  - now apply ehdrb_ok. - now apply emsgb_ok.
  - apply andb_prop in H as [? ?]. auto using u32b_ok.
Qed.
Lemma crun_combine es : forall v v' tr, crun v es = Some (v', tr) -> tr = combine es (map snd tr).
Proof.
  induction es as [|e es IH]; intros v v' tr H; cbn [crun] in H.
  - apply some2 in H as (<- & <-). reflexivity.
  - destruct (csrv_step v e) as [[v1 os]|]; [|discriminate].
    destruct (crun v1 es) as [[v2 tr2]|] eqn:Er; [|discriminate]. apply some2 in H as (_ & <-).
    cbn [map snd combine]. f_equal. eapply IH; eauto.
Qed.
Definition couts_of (x : option (csrv * ctrace)) : option (list (list cout)) := match x with Some (_, tr) => Some (map snd tr) | None => None end.
Notation couts ini es := (couts_of (cstarted (csrv_new ini) es)).
Lemma couts_reach ini o es oss : cini_ok ini -> forallb cev_okb es = true -> csrv_new ini = o ->
  couts_of (cstarted o es) = Some oss -> exists v, creach ini v (combine es oss).
Proof.
  intros Hm Hok Eo H. destruct o as [v0|]; [|discriminate]. cbn [cstarted] in H.
  destruct (crun v0 es) as [[v tr]|] eqn:E; [|discriminate]. cbn [couts_of] in H. injection H as <-.
  exists v. rewrite <- (crun_combine _ _ _ _ E). change tr with ([] ++ tr). eapply (crun_reach ini es v0 []); eauto using cev_okb_ok. now apply cr_new.
Qed.
Lemma creach_snoc ini v tr e os : creach ini v (tr ++ [(e, os)]) -> exists v0, creach ini v0 tr /\ cev_ok e /\ csrv_step v0 e = Some (v, os).
Proof.
  intros H. inversion H as [v0 _ _ E|v0 tr0 e0 v1 os0 R He Hs E1 E2].
  - destruct tr; discriminate.
  - apply app_inj_tail in E2 as [-> E2]. injection E2 as -> ->. eauto.
Qed.
Lemma couts_last ini es oss e os : cini_ok ini -> forallb cev_okb (es ++ [e]) = true -> length es = length oss ->
  couts ini (es ++ [e]) = Some (oss ++ [os]) ->
  exists v v', creach ini v (combine es oss) /\ cev_ok e /\ csrv_step v e = Some (v', os) /\ creach ini v' (combine es oss ++ [(e, os)]).
Proof.
  intros Hm Hok Hl H. apply (couts_reach ini _ _ _ Hm Hok eq_refl) in H as [v' R].
  assert (E : combine (es ++ [e]) (oss ++ [os]) = combine es oss ++ [(e, os)]).
  { clear - Hl. revert oss Hl. induction es as [|x es IH]; intros [|y oss] Hl; try discriminate; [reflexivity|].
    cbn. f_equal. apply IH. now injection Hl. }
  rewrite E in R. pose proof R as R'. apply creach_snoc in R as (v & R & A & B). eauto 8.
Qed.
