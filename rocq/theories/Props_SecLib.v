(** Theorems about the secure channel library, C122-C129. *)
From Verif Require Import Base ModbusCodecSpec ModbusClientModel UaCodecModel UaCodecSpec UaTcpModel UaTcpSpec UaTcpFacts UaChanModel UaChanSpec
  ProtoConnModel ProtoConnSpec ProtoConnProofs ProtoConnFacts SecLibModel SecLibSpec SecLibProofs SecLibFacts SecLibWire SecLibRuns.
Local Open Scope Z_scope.

(** The outputs of a computed history. *)
Definition outs_of (role : prole) (es : list sev) : list s_out := match sget role zbuf zini es with Some o => o | None => [] end.
Definition hist (role : prole) (es : list sev) : strace := combine es (outs_of role es).
Lemma hist_reach role es : forallb sev_okb es = true -> (match sget role zbuf zini es with Some _ => true | None => false end) = true ->
  exists x, sreach role zbuf zini x (hist role es) /\ srun role (sch_new zbuf zini) es = Some (x, outs_of role es).
Proof.
  intros F H. unfold hist, outs_of. destruct (sget role zbuf zini es) as [o|] eqn:E; [|discriminate H]. apply sget_from; auto using zbuf_ok, zini_ok.
Qed.

Lemma down_ev e : match e with SvOpen _ _ _ _ | SvSend _ _ => False | _ => True end -> lower e [] <> None.
Proof. destruct e; cbn; try contradiction; discriminate. Qed.
Lemma heard_ev x e x' os ns t m : s_step RServer x e = Some (x', (os, ns), t) -> heard_of ns = Some m \/ requested ns = true \/ ended ns = true -> lower e [] <> None.
Proof.
  intros H B. apply down_ev. destruct e; auto; cbn [s_step] in H.
  - assert (ns = []) as ->; [|cbn in B; intuition discriminate]. destruct (s_st x); [|injection H; auto..]. destruct (p_step _ _ _) as [[[? ?] []]|]; [injection H; auto|injection H; auto|discriminate H].
  - assert (ns = []) as ->; [|cbn in B; intuition discriminate]. destruct (s_send _ _) as [[? ?]|]; [|discriminate H]. destruct (p_step _ _ _) as [[[? ?] ?]|]; [injection H; auto|discriminate H].
Qed.

(** * C122 *)

(** When a message of type MSG arrives and the channel is open, it is handed to the user if it carries the token of the
    latest open response and the number after that of the latest message taken; otherwise the user is told of an error,
    once, and link and timer are given back.  If the latest open request could not be decoded its number is not known. *)
Definition fits (v : sview) (m : list Z) : Prop := le_at 12 m = v_tok v /\ forall q, v_last v = Some q -> le_at 16 m = (q + 1) mod 4294967296.
Theorem C122_admission b0 ini x tr e x' os ns t m : sreach RServer b0 ini x tr -> sev_ok e -> s_enabled x e = true ->
  s_step RServer x e = Some (x', (os, ns), t) -> heard_of ns = Some m -> is_msg m = true -> v_open (view tr) = true ->
  (ns = [SHeard m; SRequest] /\ fits (view tr) m /\ sees is_pfreed os = false) \/
  (ns = [SHeard m; SError] /\ (fits (view tr) m -> v_last (view tr) = None) /\ In PShut os /\ sees is_pfreed os = true).
Proof.
  intros R Ok En St Hm Mm Vo. pose proof (reach_SI _ _ _ _ R) as I0. destruct (SI_step _ _ _ _ _ _ _ I0 Ok En St) as [_ D].
  specialize (D (heard_ev _ _ _ _ _ _ _ St (or_introl Hm))). destruct I0 as [IO ME OK CO VO VI TX NU LI].
  assert (Es : s_st x = SEst) by (rewrite VO in Vo; destruct (s_st x); congruence). destruct (VI Es) as (V1 & V2 & V3 & _).
  assert (Fit : forall mm, good x mm -> fits (view tr) mm) by (intros mm [G1 G2]; split; [congruence|]; intros q Hq; rewrite G2, (V3 q Hq); reflexivity).
  assert (Fit2 : forall mm, ~ good x mm -> fits (view tr) mm -> v_last (view tr) = None).
  { intros mm Ng [F1 F2]. destruct (v_last (view tr)) as [q|] eqn:Eq; [|reflexivity]. exfalso. apply Ng. split; [congruence|]. rewrite (F2 q eq_refl), (V3 q eq_refl). reflexivity. }
  destruct D as [(c' & -> & -> & Cl & ->)|(n & x1 & ks & ns' & thr & c' & Hc & -> & -> & -> & Su & Sh & Nt & Ni & Nw)]; [discriminate Hm|].
  apply sum_inv in Su as (S1 & S2 & S3 & S4). set (mm := skipn _ _) in *.
  assert (Nm : n <> NConnected /\ n <> NError /\ n <> NClosed -> talks n) by (intros (A & B & C); destruct n; auto; try congruence; exact I).
  inversion Hc; subst; clear Hc.
  - exfalso. destruct n; try congruence. cbn in Hm. injection Hm as ->. destruct H as [A|[A|(A & [B|(B & C)])]]; congruence.
  - congruence.
  - exfalso. destruct H as [(-> & ->)|(-> & ->)]; discriminate Hm.
  - exfalso. destruct n; try contradiction. cbn in Hm. injection Hm as E. rewrite E in *. clear - H0 Mm. unfold is_opn, is_msg, has_octets in *.
    destruct m as [|a [|b [|c m]]]; cbn in *; try discriminate. lia.
  - exfalso. destruct n; try contradiction. cbn in Hm. injection Hm as E. rewrite E in *. clear - H0 Mm. unfold is_opn, is_msg, has_octets in *.
    destruct m as [|a [|b [|c m]]]; cbn in *; try discriminate. lia.
  - exfalso. destruct n; try contradiction. cbn in Hm. injection Hm as E. rewrite E in *. clear - H0 Mm. unfold is_opn, is_msg, has_octets in *.
    destruct m as [|a [|b [|c m]]]; cbn in *; try discriminate. lia.
  - exfalso. destruct n; try contradiction. cbn in Hm. injection Hm as E. rewrite E in *. clear - H1 Mm. unfold is_clo, is_msg, has_octets in *.
    destruct m as [|a [|b [|c m]]]; cbn in *; try discriminate. lia.
  - right. destruct n; try contradiction. cbn in Hm. injection Hm as E. rewrite E in *. split; [reflexivity|]. split; [apply Fit2; assumption|]. split; [apply Sh; [exact I|reflexivity]|exact S4].
  - left. destruct n; try contradiction. cbn in Hm. injection Hm as E. rewrite E in *. split; [reflexivity|]. split; [apply Fit; assumption|exact S4].
Qed.

(** Nothing else is ever handed to the user as a request. *)
Theorem C122_only b0 ini x tr e x' os ns t : sreach RServer b0 ini x tr -> sev_ok e -> s_enabled x e = true ->
  s_step RServer x e = Some (x', (os, ns), t) -> requested ns = true ->
  exists m, ns = [SHeard m; SRequest] /\ is_msg m = true /\ v_open (view tr) = true /\ fits (view tr) m.
Proof.
  intros R Ok En St Hq. pose proof (reach_SI _ _ _ _ R) as I0. destruct (SI_step _ _ _ _ _ _ _ I0 Ok En St) as [_ D].
  specialize (D (heard_ev _ _ _ _ _ _ [] St (or_intror (or_introl Hq)))). destruct I0 as [IO ME OK CO VO VI TX NU LI].
  destruct D as [(c' & -> & -> & Cl & ->)|(n & x1 & ks & ns' & thr & c' & Hc & -> & -> & -> & Su & Sh & Nt & Ni & Nw)]; [discriminate Hq|].
  set (mm := skipn _ _) in *.
  assert (Q : requested ns' = true) by (destruct n; exact Hq).
  inversion Hc; subst; try discriminate Q.
  - destruct H as [(_ & ->)|(_ & ->)]; discriminate Q.
  - destruct n; try contradiction. exists mm. split; [reflexivity|]. split; [assumption|]. split; [now rewrite VO, H3|].
    destruct (VI H3) as (V1 & V2 & V3 & _). destruct H4 as [G1 G2]. split; [congruence|]. intros q Eq. rewrite G2, (V3 q Eq). reflexivity.
Qed.

Definition asks : list sev := sv_open ++ [rx_ev (req_of 77 1 9 [1; 2]) [([5; 6], whole)]; rx_ev (req_of 77 2 10 [1; 2]) []].
Example C122_case : exists x, sreach RServer zbuf zini x (hist RServer asks) /\ v_open (view (hist RServer asks)) = true /\
  v_last (view (hist RServer asks)) = Some 2 /\ v_tok (view (hist RServer asks)) = 77 /\ requested (snotes (hist RServer asks)) = true.
Proof.
  destruct (hist_reach RServer asks) as (x & R & _); [vm_compute; reflexivity..|]. exists x. split; [exact R|].
  split; [vm_compute; reflexivity|]. split; [vm_compute; reflexivity|]. split; vm_compute; reflexivity.
Qed.
(** A repeated number ends the channel. *)
Example C122_replay : match snotes (skipn 5 (hist RServer (asks ++ [rx_ev (req_of 77 2 10 [1; 2]) []]))) with [SHeard _; SError] => True | _ => False end.
Proof. vm_compute. exact I. Qed.

(** * C123 *)

(** A packet of 20 octets, four short of its headers, is handed to the user as a request: the missing octets are what an
    earlier packet left in the buffer. *)
Definition stub : list Z := [77; 83; 71; 70] ++ le_bytes 4 20 ++ le_bytes 4 55 ++ le_bytes 4 77 ++ le_bytes 4 2.
Definition cut_run : list sev := sv_open ++ [rx_ev (req_of 77 1 9 [1; 2]) []].
Theorem C123_refuted :
  ~ (forall b0 ini x tr e x' os ns t p, sreach RServer b0 ini x tr -> sev_ok e -> s_enabled x e = true ->
       s_step RServer x e = Some (x', (os, ns), t) -> In (PNote (NData p)) os -> requested ns = true -> (24 <= length p)%nat).
Proof.
  intros H. destruct (hist_reach RServer cut_run) as (x & R & Rn); [vm_compute; reflexivity..|].
  destruct (sthen_step RServer zbuf zini cut_run (rx_ev stub []) x _ (Some (last (outs_of RServer (cut_run ++ [rx_ev stub []])) ([], []), false)) Rn) as (En & x' & St);
    [vm_compute; reflexivity|].
  remember (last (outs_of RServer (cut_run ++ [rx_ev stub []])) ([], [])) as o eqn:Eo. destruct o as [os ns].
  assert (B1 : os = [PNote (NData stub)]) by (change os with (fst (os, ns)); rewrite Eo; vm_compute; reflexivity).
  assert (B2 : requested ns = true) by (change ns with (snd (os, ns)); rewrite Eo; vm_compute; reflexivity).
  specialize (H _ _ _ _ _ _ _ _ _ stub R (sev_okb_ok (rx_ev stub []) eq_refl) En St). rewrite B1 in H. specialize (H (or_introl eq_refl) B2). cbn in H. lia.
Qed.

(** What a request consists of: the packet announced by the connection, followed by what the buffer held before; the
    token, number and request id are those of the packet if it has 24 octets. *)
Theorem C123_partial role b0 ini x tr e x' os ns t m : sreach role b0 ini x tr -> caught tr = false -> sev_ok e -> s_enabled x e = true ->
  s_step role x e = Some (x', (os, ns), t) -> heard_of ns = Some m ->
  exists bs w rnd t1 t2 tl us p, e = SvData (RxBytes bs) w rnd t1 t2 tl us /\ In (PNote (NData p)) os /\
    p = firstn (Z.to_nat 4096) (sunread tr ++ bs) /\ sized p /\ p = firstn (length p) m.
Proof.
  intros R Ca Ok En St Hm. destruct (reach_SL _ _ _ _ _ R) as [IO _ CO]. destruct (CO Ca) as (ptr & P1 & P2 & P3 & P4).
  destruct (heard_note _ _ _ _ _ _ _ _ IO En St Hm) as (Lo & h & Hin & Hs & Em).
  destruct (reach_inv _ _ _ _ P1 P2) as (ph & _ & _ & HX & _). rewrite (x_conn _ _ _ HX Hs) in Em. cbn [skipn] in Em. rewrite <- Em in Hin.
  assert (G : exists pe os1, pev_ok pe /\ p_enabled (s_c x) pe = true /\ (exists ks, lower e ks = Some pe) /\ mannered os1 /\ In (PNote (NData (firstn h m))) os1 /\
     exists c1 t1, p_step role pe (s_c x) = Some (c1, os1, t1)).
  { destruct (step_low _ _ _ _ _ _ _ IO Ok En St) as [(_ & -> & _)|(pe & Pk & Pe & Ks & Rx & [(Ps & Mn & Hh)|(c0 & os0 & b & Ps & Mn & -> & -> & Hh & Hs' & Ec)])].
    - destruct Hin.
    - exists pe, os. destruct (Ks Lo). repeat split; eauto.
    - exists pe, os0. destruct (Ks Lo). repeat split; eauto. apply in_app_or in Hin as [B|[B|[]]]; [exact B|discriminate B]. }
  destruct G as (pe & os1 & Pk & Pe & (ks & Lk) & Mn & Hi & c1 & tt & Ps).
  assert (R2 : preach role b0 c1 (ptr ++ [(pe, os1)])) by (eapply pr_step; eauto).
  assert (W2 : well_mannered (ptr ++ [(pe, os1)])) by (apply Forall_app; split; [exact P2|constructor; [exact Mn|constructor]]).
  destruct (step_Q _ _ _ _ _ _ R2 W2) as [q _]. destruct (q _ Hi) as (bs & w & us & -> & Hp & Hz).
  destruct e; cbn [lower] in Lk; try discriminate Lk. injection Lk as -> -> ->. rewrite P4 in Hp.
  exists bs, w, rnd, t1, t2, tl, us0, (firstn h m). split; [reflexivity|]. split; [exact Hin|].
  split; [rewrite Hp; reflexivity|]. split; [exact Hz|]. rewrite firstn_length. clear. destruct (Nat.le_ge_cases h (length m)).
  - now rewrite Nat.min_l by auto.
  - rewrite Nat.min_r by auto. rewrite firstn_all. now rewrite firstn_all2 by auto.
Qed.
Example C123_case : exists x x' os ns, sreach RServer zbuf zini x (hist RServer cut_run) /\ caught (hist RServer cut_run) = false /\
  s_enabled x (rx_ev stub []) = true /\ s_step RServer x (rx_ev stub []) = Some (x', (os, ns), false) /\ heard_of ns <> None.
Proof.
  destruct (hist_reach RServer cut_run) as (x & R & Rn); [vm_compute; reflexivity..|].
  destruct (sthen_step RServer zbuf zini cut_run (rx_ev stub []) x _ (Some (last (outs_of RServer (cut_run ++ [rx_ev stub []])) ([], []), false)) Rn) as (En & x' & St);
    [vm_compute; reflexivity|].
  remember (last (outs_of RServer (cut_run ++ [rx_ev stub []])) ([], [])) as o eqn:Eo. destruct o as [os ns].
  exists x, x', os, ns. split; [exact R|]. split; [vm_compute; reflexivity|]. split; [exact En|]. split; [exact St|].
  change ns with (snd (os, ns)). rewrite Eo. vm_compute. discriminate.
Qed.

(** * C124 *)

(** The packets a server channel hands to its connections, over all the connections of its life, are open responses and
    messages, numbered 1, 2, 3, ... modulo 2^32. *)
Theorem C124_numbers b0 ini x tr i p : sreach RServer b0 ini x tr -> nth_error (sent tr) i = Some p ->
  pkt_seq p = (1 + Z.of_nat i) mod 4294967296 /\ (is_opn p = true \/ is_msg p = true).
Proof. intros R. exact (si_num _ _ (reach_SI _ _ _ _ R) i p). Qed.
Example C124_case : map pkt_seq (sent (hist RServer (asks ++ [SvSend [3] whole; SvTimer []; SvOpen true true true 3; rx_ev hel []; rx_ev opn_req []]))) = [1; 2; 3; 4].
Proof. vm_compute. reflexivity. Qed.

(** * C125 *)

Fixpoint answers (id tok seq req : Z) (us : list (list Z * option nat)) : list (list Z) :=
  match us with [] => [] | u :: r => msg_pkt id tok (seq mod 4294967296) req (fst u) :: answers id tok (seq + 1) req r end.
Lemma answers_mod id tok req us : forall a b, a mod 4294967296 = b mod 4294967296 -> answers id tok a req us = answers id tok b req us.
Proof.
  induction us as [|u us IH]; intros a b E; [reflexivity|]. cbn [answers]. rewrite E. f_equal. apply IH. rewrite <- (Zplus_mod_idemp_l a), E, Zplus_mod_idemp_l. reflexivity.
Qed.
Lemma pks_msgs us : forall y, s_ok y -> pks (msgs y us) = answers (s_id y) (s_tok y) (s_tx y) (s_req y) us.
Proof.
  induction us as [|u us IH]; intros y Hy; [reflexivity|]. cbn [msgs pks flat_map app answers]. fold (pks (msgs (x_bump y) us)). rewrite IH by now apply bump_ok.
  rewrite Z.mod_small by apply Hy. f_equal. cbn [x_bump s_id s_tok s_tx s_req]. apply answers_mod. unfold u32. now rewrite Z.mod_mod.
Qed.
(** What the user sends from inside the notification of a request goes out, in order, with the id of that request, the
    channel id and the token of the open response. *)
Theorem C125_inside b0 ini x tr e x' os ns t : sreach RServer b0 ini x tr -> sev_ok e -> s_enabled x e = true ->
  s_step RServer x e = Some (x', (os, ns), t) -> requested ns = true ->
  exists m, heard_of ns = Some m /\ handed os = answers (v_id (view tr)) (v_tok (view tr)) (1 + Z.of_nat (length (sent tr))) (le_at 20 m) (s_us e).
Proof.
  intros R Ok En St Hq. pose proof (reach_SI _ _ _ _ R) as I0. destruct (SI_step _ _ _ _ _ _ _ I0 Ok En St) as [_ D].
  specialize (D (heard_ev _ _ _ _ _ _ [] St (or_intror (or_introl Hq)))). destruct I0 as [IO ME OK CO VO VI TX NU LI].
  destruct D as [(c' & -> & -> & Cl & ->)|(n & x1 & ks & ns' & thr & c' & Hc & -> & -> & -> & Su & Sh & Nt & Ni & Nw)]; [discriminate Hq|].
  set (mm := skipn _ _) in *. apply sum_inv in Su as (S1 & _).
  assert (Q : requested ns' = true) by (destruct n; exact Hq).
  inversion Hc; subst; try discriminate Q.
  - destruct H as [(_ & ->)|(_ & ->)]; discriminate Q.
  - destruct n; try contradiction. exists mm. split; [reflexivity|]. rewrite S1, pks_msgs by assumption. destruct (VI H3) as (V1 & V2 & _).
    rewrite V1, V2. cbn [y x_took s_id s_tok s_tx s_req sq_num sq_req]. apply answers_mod. rewrite TX. now rewrite Z.mod_mod.
Qed.
Example C125_case : handed (souts (skipn 3 (firstn 4 (hist RServer asks)))) = [msg_pkt 55 77 2 9 [5; 6]].
Proof. vm_compute. reflexivity. Qed.
(** Outside of a notification the answer names the latest request, whatever it answers. *)
Theorem C125_outside b0 ini x tr body w x' os ns t q : sreach RServer b0 ini x tr -> sev_ok (SvSend body w) ->
  s_step RServer x (SvSend body w) = Some (x', (os, ns), t) -> v_open (view tr) = true -> v_req (view tr) = Some q ->
  handed os = [msg_pkt (v_id (view tr)) (v_tok (view tr)) ((1 + Z.of_nat (length (sent tr))) mod 4294967296) q body].
Proof.
  intros R Ok St Vo Vq. destruct (reach_SI _ _ _ _ R) as [IO ME OK CO VO VI TX NU LI].
  assert (Es : s_st x = SEst) by (rewrite VO in Vo; destruct (s_st x); congruence). destruct (VI Es) as (V1 & V2 & _ & V4).
  cbn [s_step] in St. rewrite s_send_eq in St by auto. cbn [fst snd] in St. destruct (p_step RServer _ (s_c x)) as [[[c1 os1] t1]|] eqn:E1; [|discriminate St]. injection St as <- <- <- <-.
  cbn [p_step] in E1. destruct (send_run _ _ _ _ _ _ _ E1) as (_ & _ & Su). apply sum_inv in Su as (-> & _). rewrite V1, V2, (V4 _ Vq), <- TX. reflexivity.
Qed.
(** Of two requests waiting, the first cannot be answered any more. *)
Definition two : list sev := sv_open ++ [rx_ev (req_of 77 1 9 []) []; rx_ev (req_of 77 2 10 []) []].
Theorem C125_refuted :
  ~ (forall b0 ini x tr m, sreach RServer b0 ini x tr -> v_open (view tr) = true ->
       (exists e os, In (e, (os, [SHeard m; SRequest])) tr) -> sent tr = [hd [] (sent tr)] ->
       exists body w x' os ns t p, sev_ok (SvSend body w) /\ s_step RServer x (SvSend body w) = Some (x', (os, ns), t) /\ In p (handed os) /\ le_at 20 p = le_at 20 m).
Proof.
  intros H. destruct (hist_reach RServer two) as (x & R & _); [vm_compute; reflexivity..|].
  remember (hist RServer two) as tr eqn:Et. assert (Vo : v_open (view tr) = true) by (rewrite Et; vm_compute; reflexivity).
  assert (Vq : v_req (view tr) = Some 10) by (rewrite Et; vm_compute; reflexivity).
  assert (Hm : exists m e os, In (e, (os, [SHeard m; SRequest])) tr /\ le_at 20 m = 9).
  { assert (G : nth_error tr 3 = Some (rx_ev (req_of 77 1 9 []) [], ([PNote (NData (req_of 77 1 9 []))], [SHeard (match heard_of (snotes (skipn 3 tr)) with Some m => m | None => [] end); SRequest])))
      by (rewrite Et; vm_compute; reflexivity).
    exists (match heard_of (snotes (skipn 3 tr)) with Some m => m | None => [] end), (rx_ev (req_of 77 1 9 []) []), [PNote (NData (req_of 77 1 9 []))].
    split; [eapply nth_error_In; exact G|rewrite Et; vm_compute; reflexivity]. }
  destruct Hm as (m & e & os & Hin & Hid).
  assert (Hs : sent tr = [hd [] (sent tr)]) by (rewrite Et; vm_compute; reflexivity).
  destruct (H _ _ _ _ m R Vo (ex_intro _ e (ex_intro _ os Hin)) Hs) as (body & w & x' & os' & ns & t & p & Ok & St & Hp & Hl).
  pose proof (C125_outside _ _ _ _ _ _ _ _ _ _ _ R Ok St Vo Vq) as E. rewrite E in Hp. destruct Hp as [<-|[]].
  assert (E20 : le_at 20 (msg_pkt (v_id (view tr)) (v_tok (view tr)) ((1 + Z.of_nat (length (sent tr))) mod 4294967296) 10 body) = 10).
  { replace (v_id (view tr)) with 55 by (rewrite Et; vm_compute; reflexivity). replace (v_tok (view tr)) with 77 by (rewrite Et; vm_compute; reflexivity).
    rewrite Hs. cbn [length]. unfold msg_pkt, le_at. reflexivity. }
  rewrite E20, Hid in Hl. discriminate Hl.
Qed.

(** * C126 *)

(** Every history of a server channel follows its life cycle: an open() takes a timer or throws; an opened channel ends
    with exactly one notification, giving back link and timer in the same event; nothing is notified otherwise. *)
Theorem C126_life b0 ini x tr : sreach RServer b0 ini x tr -> exists b, life false tr = Some b.
Proof. intros R. eexists. exact (si_life _ _ (reach_SI _ _ _ _ R)). Qed.
(** An ended channel can be opened again. *)
Theorem C126_again b0 ini x tr lok cok rnd : sreach RServer b0 ini x tr -> life false tr = Some false ->
  exists x', s_step RServer x (SvOpen lok true cok rnd) = Some (x', ([PUser (KAccept true); PLink; PTimer; PArm 1000000], []), false).
Proof.
  intros R L. destruct (reach_SI _ _ _ _ R) as [IO ME OK CO VO VI TX NU LI]. rewrite L in LI.
  assert (Es : s_st x = SInit) by (destruct (s_st x); congruence). cbn [s_step]. rewrite Es. unfold corr in CO. rewrite Es in CO.
  rewrite accept_run by exact CO. eexists. reflexivity.
Qed.
(** An opened channel has a timer running, of at most ten seconds, and ends when it expires. *)
Theorem C126_ends b0 ini x tr : sreach RServer b0 ini x tr -> life false tr = Some true ->
  s_enabled x (SvTimer []) = true /\ (exists us, p_timer (s_c x) = Some (Some us) /\ 0 < us <= 10000000) /\
  exists x' n k, s_step RServer x (SvTimer []) = Some (x', ([PShut; PNote n; PDisarm; PFreed], [k]), false) /\ is_end k = true.
Proof.
  intros R L. destruct (reach_SI _ _ _ _ R) as [IO ME OK CO VO VI TX NU LI]. rewrite L in LI. destruct (reach_SL _ _ _ _ _ R) as [_ AR _].
  assert (Dl : dials (souts tr)).
  { clear - R. induction R as [|x tr e x' [os ns] t R IH Ok En St]; [intros l t []|].
    rewrite souts_snoc. intros l t0 B. apply in_app_or in B as [B|B]; [exact (IH l t0 B)|]. cbn [fst snd] in B.
    pose proof (si_io _ _ (reach_SI _ _ _ _ R)) as IO. destruct (lower e []) as [pe|] eqn:El.
    { destruct (step_low _ _ _ _ _ _ _ IO Ok En St) as [(_ & -> & _)|(pe' & _ & _ & Ks & _)]; [destruct B|].
      destruct Ks as [_ Ks]; [rewrite El; discriminate|]. exact (Ks _ B I). }
    destruct e; try discriminate El; cbn [s_step] in St.
    - destruct (s_st x); try (injection St as <- <- <- <-; destruct B). destruct (p_step RServer _ (s_c x)) as [[[c o] tt]|] eqn:E; [|discriminate St].
      assert (os = o) as -> by (destruct tt; injection St; auto). apply (call_from RServer) in E. rewrite Forall_forall in E. specialize (E _ B). discriminate E.
    - destruct (s_send x (body, w)) as [[x1 k]|] eqn:Es; [|discriminate St]. apply s_send_call in Es as [Hk _]. destruct (p_step RServer _ (s_c x)) as [[[c o] tt]|] eqn:E; [|discriminate St].
      injection St as <- <- <- <-. apply (call_from RServer) in E. rewrite Forall_forall in E. specialize (E _ B). cbn in E. subst k. contradiction. }
  specialize (AR Dl). assert (Ns : s_st x <> SInit) by (intros B; rewrite B in LI; discriminate LI).
  assert (Np : p_st (s_c x) <> PsInit) by (unfold corr in CO; rewrite CO; destruct (s_st x); congruence).
  assert (Tm : exists us, p_timer (s_c x) = Some (Some us) /\ 0 < us <= 10000000).
  { unfold A in AR. destruct (p_st (s_c x)); [congruence|..]; (eexists; split; [exact AR|unfold connectTimeout, receiveTimeout, establishTimeout; lia]). }
  destruct Tm as (us & Ht & Hb). assert (En : s_enabled x (SvTimer []) = true) by (unfold s_enabled; cbn [lower p_enabled]; now rewrite Ht).
  split; [exact En|]. split; [eauto|].
  destruct (io_J _ IO) as (ph & r & HJ). destruct (timer_end RServer _ ph r HJ Np) as (c' & n & St & Hn).
  assert (N2 : n = NClosed \/ n = NError) by (destruct ph; auto).
  cbn [s_step]. unfold s_down. cbn [lower]. rewrite St. cbn [note_of s_rand s_us s_w rx_now].
  destruct N2 as [-> | ->]; unfold s_hear; destruct (s_st x); try congruence; cbn [s_tell s_sends app x_st]; rewrite St; cbn [heard app]; eexists _, _, _; (split; [reflexivity|reflexivity]).
Qed.

Example C126_case : life false (hist RServer (asks ++ [SvTimer []; SvOpen true true true 3; rx_ev hel []; rx_ev opn_req []; SvTimer []])) = Some false /\
  snotes (hist RServer [SvOpen true true true 55; SvTimer []; SvOpen true true true 3; rx_ev hel []; SvTimer []]) = [SError; SClosed].
Proof. split; vm_compute; reflexivity. Qed.

(** * C127 *)

(** send() on a channel object that was not opened yet uses a link that does not exist. *)
Theorem C127_undefined b0 ini body w : ini_ok ini -> sev_ok (SvSend body w) ->
  s_enabled (sch_new b0 ini) (SvSend body w) = true /\ s_step RServer (sch_new b0 ini) (SvSend body w) = None.
Proof.
  intros Hi Hb. split; [reflexivity|]. destruct ini as [[[[a b] c] d] f]. destruct Hi as (I1 & I2 & I3 & I4 & I5).
  cbn [s_step]. rewrite s_send_eq; [reflexivity| |exact Hb]. constructor; cbn; auto. unfold is_u32. lia.
Qed.
(** Before the channel is open, send() puts a message on the wire whose token and request id are indeterminate. *)
Definition odd_ini : Z * Z * Z * Z * Z := (1, 2, 3735928559, 4, 3405691582).
Example C127_early : option_map (fun o => handed (concat (map fst o))) (sget RServer zbuf odd_ini [SvOpen true true true 55; rx_ev hel []; SvSend [7] whole]) =
  Some [msg_pkt 55 3405691582 1 3735928559 [7]].
Proof. vm_compute. reflexivity. Qed.
Theorem C127_refuted :
  ~ (forall b0 ini x tr body w, sreach RServer b0 ini x tr -> sev_ok (SvSend body w) -> v_open (view tr) = false ->
       exists x', s_step RServer x (SvSend body w) = Some (x', ([], []), false)).
Proof.
  intros H. destruct (H zbuf zini _ [] [7] whole (sr_new _ _ _ zbuf_ok zini_ok) (sev_okb_ok (SvSend [7] whole) eq_refl) eq_refl) as (x' & E).
  destruct (C127_undefined zbuf zini [7] whole zini_ok (sev_okb_ok (SvSend [7] whole) eq_refl)) as [_ B]. congruence.
Qed.
(** While the channel is open send() is defined and hands exactly one packet to the connection. *)
Theorem C127_partial b0 ini x tr body w : sreach RServer b0 ini x tr -> sev_ok (SvSend body w) -> v_open (view tr) = true ->
  exists x' os, s_step RServer x (SvSend body w) = Some (x', (os, []), false) /\ length (handed os) = 1%nat.
Proof.
  intros R Ok Vo. destruct (reach_SI _ _ _ _ R) as [IO ME OK CO VO VI TX NU LI].
  assert (Es : s_st x = SEst) by (rewrite VO in Vo; destruct (s_st x); congruence). cbn [s_step]. rewrite s_send_eq by auto. cbn [fst snd p_step].
  unfold corr in CO. rewrite Es in CO. unfold has_io in IO. rewrite CO in IO. destruct IO as [_ Hl].
  destruct (p_call RServer _ (s_c x)) as [[[c os] t]|] eqn:E.
  - destruct (send_run _ _ _ _ _ _ _ E) as (-> & -> & Su). apply sum_inv in Su as (Hh & _). eexists _, os. split; [reflexivity|]. now rewrite Hh.
  - exfalso. destruct (s_c x) as [st ti li rx]. cbn [p_st p_link] in *. subst st. destruct li as [[]|]; [destruct w| |congruence]; discriminate E.
Qed.
Example C127_case : v_open (view (hist RServer sv_open)) = true.
Proof. vm_compute. reflexivity. Qed.

(** * C128 *)

(** A client channel whose connection ends while the open response is awaited stays as it is for ever: open() does nothing
    and no event reaches it. *)
Theorem C128_stuck x es y oss : s_st x = SShake -> p_st (s_c x) = PsInit -> p_timer (s_c x) = None -> srun RClient x es = Some (y, oss) ->
  s_st y = SShake /\ p_st (s_c y) = PsInit /\ Forall (fun o => o = ([], [])) oss.
Proof.
  revert x y oss. induction es as [|e es IH]; intros x y oss Hs Hp Ht H; cbn [srun] in H.
  - injection H as <- <-. auto.
  - destruct (s_enabled x e) eqn:En; [|discriminate H]. destruct (s_step RClient x e) as [[[x1 o] t]|] eqn:St; [|discriminate H].
    destruct (srun RClient x1 es) as [[x2 os]|] eqn:Er; [|discriminate H]. injection H as <- <-.
    assert (G : o = ([], []) /\ s_st x1 = SShake /\ p_st (s_c x1) = PsInit /\ p_timer (s_c x1) = None).
    { destruct e; cbn [s_step] in St.
      - rewrite Hs in St. injection St as <- <- <-. auto.
      - injection St as <- <- <-. auto.
      - unfold s_down in St. cbn [lower p_step] in St. rewrite Hp in St. unfold pskip in St. cbn [note_of] in St. injection St as <- <- <-. auto.
      - unfold s_down in St. cbn [lower p_step] in St. rewrite Hp in St. unfold pskip in St. cbn [note_of] in St. injection St as <- <- <-. auto.
      - unfold s_down in St. cbn [lower p_step] in St. rewrite Hp in St. unfold pskip in St. cbn [note_of] in St. injection St as <- <- <-. auto.
      - unfold s_enabled in En. cbn [lower p_enabled] in En. rewrite Ht in En. discriminate En. }
    destruct G as (-> & G1 & G2 & G3). destruct (IH _ _ _ G1 G2 G3 Er) as (A & B & C). auto.
Qed.
Definition cl_open : list sev := [SvOpen true true true 0; SvConnected whole []; rx_ev ack []].
Theorem C128_refuted :
  ~ (forall b0 ini x tr, sreach RClient b0 ini x tr -> life false tr = Some false ->
       exists es y oss, srun RClient x es = Some (y, oss) /\ exists o, In o oss /\ o <> ([], [])).
Proof.
  intros H. destruct (hist_reach RClient (cl_open ++ [SvTimer []])) as (x & R & Rn); [vm_compute; reflexivity..|].
  destruct (H _ _ _ _ R) as (es & y & oss & Er & o & Ho & Hn); [vm_compute; reflexivity|].
  assert (S : s_st x = SShake /\ p_st (s_c x) = PsInit /\ p_timer (s_c x) = None).
  { assert (G : match srun RClient (sch_new zbuf zini) (cl_open ++ [SvTimer []]) with Some (z, _) => (s_st z, p_st (s_c z), p_timer (s_c z)) | None => (SInit, PsConn, None) end = (SShake, PsInit, None))
      by (vm_compute; reflexivity).
    rewrite Rn in G. injection G as -> -> ->. auto. }
  destruct S as (S1 & S2 & S3). destruct (C128_stuck _ _ _ _ S1 S2 S3 Er) as (_ & _ & F). rewrite Forall_forall in F. exact (Hn (F _ Ho)).
Qed.
(** The other way round it works: an attempt that fails before the connection is established can be repeated. *)
Example C128_case : snotes (hist RClient [SvOpen true true true 0; SvTimer []; SvOpen true true true 0; SvError []]) = [SError; SError] /\
  length (filter is_ptimer (souts (hist RClient [SvOpen true true true 0; SvTimer []; SvOpen true true true 0]))) = 2%nat.
Proof. split; vm_compute; reflexivity. Qed.

(** * C129 *)

(** The only things the user of a client channel is ever told of are that it was closed or failed. *)
Lemma hear_client x n b w ok rnd t1 t2 us x1 ks ns thr : s_hear RClient x n b w ok rnd t1 t2 us = Some (x1, ks, ns, thr) -> requested ns = false.
Proof.
  intros H. unfold s_hear in H. destruct n.
  - destruct (s_st x); [injection H as <- <- <- <-; reflexivity| |injection H as <- <- <- <-; reflexivity|injection H as <- <- <- <-; reflexivity]. destruct open_req_pkt; [injection H as <- <- <- <-; reflexivity|discriminate H].
  - destruct (s_st x); [injection H as <- <- <- <-; reflexivity|injection H as <- <- <- <-; reflexivity| |injection H as <- <- <- <-; reflexivity]. destruct (_ <? 3)%nat; [discriminate H|]. destruct (has_octets _ _); [|injection H as <- <- <- <-; reflexivity].
    destruct (dec_open_rsp_pkt b); [injection H as <- <- <- <-; reflexivity..|discriminate H|discriminate H].
  - destruct (s_st x); injection H as <- <- <- <-; reflexivity.
  - destruct (s_st x); injection H as <- <- <- <-; reflexivity.
Qed.
Theorem C129_silent b0 ini x tr n : sreach RClient b0 ini x tr -> In n (snotes tr) -> n <> SRequest.
Proof.
  intros R. revert n. induction R as [|x tr e x' [os ns] t R IH Ok En St]; [intros n []|]. intros n Hn.
  unfold snotes in Hn. rewrite map_app, concat_app in Hn. apply in_app_or in Hn as [Hn|Hn]; [exact (IH n Hn)|]. cbn [map concat snd] in Hn. rewrite app_nil_r in Hn. clear IH R.
  assert (Q : requested ns = false).
  { assert (Dn : s_down RClient x e = Some (x', (os, ns), t) -> requested ns = false).
    { intros H. unfold s_down in H. destruct (lower e []) as [pe|]; [|discriminate H]. cbv zeta in H. destruct (p_step RClient pe (s_c x)) as [[[c0 os0] t0]|]; [|discriminate H].
      destruct (note_of os0) as [nn|]; [|injection H as <- <- <- <-; reflexivity]. destruct (s_rand e) as [[rnd t1] t2].
      destruct (s_hear RClient x nn _ (s_w e) _ rnd t1 t2 (s_us e)) as [[[[x1 ks] ns'] thr]|] eqn:Eh; [|discriminate H]. apply hear_client in Eh.
      assert (G : ns = heard nn (rx_now (s_c x) e) ++ ns') by (destruct thr; [injection H; auto|]; destruct (lower e ks) as [pe2|]; [|discriminate H];
        destruct (p_step RClient pe2 (s_c x)) as [[[c2 os2] t3]|]; [injection H; auto|discriminate H]).
      rewrite G. destruct nn; cbn; exact Eh. }
    destruct e; cbn [s_step] in St; auto.
    - destruct (s_st x); [|injection St as <- <- <- <-; reflexivity..]. destruct (p_step _ _ _) as [[[? ?] []]|]; [injection St as <- <- <- <-; reflexivity..|discriminate St].
    - injection St as <- <- <- <-. reflexivity. }
  intros ->. unfold requested in Q. assert (existsb is_request ns = true) by (apply existsb_exists; exists SRequest; auto). congruence.
Qed.
(** So neither the established channel nor a message on it is reported. *)
Definition cl_talk : list sev := cl_open ++ [rx_ev (opn_pkt 55 1 0 77 0 0 0) []].
Theorem C129_refuted :
  ~ (forall b0 ini x tr e x' os ns t m, sreach RClient b0 ini x tr -> s_st x = SEst -> sev_ok e -> s_enabled x e = true ->
       s_step RClient x e = Some (x', (os, ns), t) -> heard_of ns = Some m -> is_msg m = true -> requested (snotes tr ++ ns) = true).
Proof.
  intros H. destruct (hist_reach RClient cl_talk) as (x & R & Rn); [vm_compute; reflexivity..|].
  set (e := rx_ev (req_of 77 2 0 [1]) []).
  destruct (sthen_step RClient zbuf zini cl_talk e x _ (Some (last (outs_of RClient (cl_talk ++ [e])) ([], []), false)) Rn) as (En & x' & St); [vm_compute; reflexivity|].
  remember (last (outs_of RClient (cl_talk ++ [e])) ([], [])) as o eqn:Eo. destruct o as [os ns].
  assert (Es : s_st x = SEst).
  { assert (G : match srun RClient (sch_new zbuf zini) cl_talk with Some (z, _) => s_st z | None => SInit end = SEst) by (vm_compute; reflexivity). now rewrite Rn in G. }
  destruct (heard_of ns) as [m|] eqn:Eh.
  2:{ assert (B : heard_of (snd (os, ns)) <> None) by (rewrite Eo; vm_compute; discriminate). cbn [snd] in B. congruence. }
  assert (Em : match heard_of (snd (os, ns)) with Some m => is_msg m | None => false end = true) by (rewrite Eo; vm_compute; reflexivity). cbn [snd] in Em. rewrite Eh in Em.
  pose proof (H _ _ _ _ _ _ _ _ _ _ R Es (sev_okb_ok e eq_refl) En St Eh Em) as B.
  assert (B2 : requested (snotes (hist RClient cl_talk) ++ snd (os, ns)) = false) by (rewrite Eo; vm_compute; reflexivity). cbn [snd] in B2. congruence.
Qed.

Print Assumptions C122_admission.
Print Assumptions C122_only.
Print Assumptions C123_refuted.
Print Assumptions C123_partial.
Print Assumptions C124_numbers.
Print Assumptions C125_inside.
Print Assumptions C125_outside.
Print Assumptions C125_refuted.
Print Assumptions C126_life.
Print Assumptions C126_again.
Print Assumptions C126_ends.
Print Assumptions C127_undefined.
Print Assumptions C127_refuted.
Print Assumptions C127_partial.
Print Assumptions C128_stuck.
Print Assumptions C128_refuted.
Print Assumptions C129_silent.
Print Assumptions C129_refuted.
