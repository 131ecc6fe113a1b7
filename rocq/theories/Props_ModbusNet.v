(** Theorems about a Modbus client and server joined by a connection, C113-C115. *)
From Verif Require Import Base QueueModel PoolModel MsgStorageModel ModbusCodecModel ModbusCodecSpec ModbusClientModel ModbusClientSpec
  ModbusServerModel ModbusServerSpec ModbusServerRuns ModbusServerWire ModbusNetModel ModbusNetSpec ModbusNetFacts Props_ModbusClient Props_ModbusServer.
Local Open Scope Z_scope.

(** * Material for the examples *)
(** The history of a pair that starts with a fresh client and a fresh server. *)
Definition join2 (b : net -> nhist -> nev -> bool) (bo : option (client astore * trace)) (vo : option (server * strace)) (es : list nev) : option nhist :=
  match bo, vo with
  | Some (c, _), Some (v, _) => option_map snd (n_run b (mkNet c v 0 [] [] true) [] es)
  | _, _ => None
  end.
Definition joined (b : net -> nhist -> nev -> bool) (es : list nev) : option nhist :=
  join2 b (boot m_init b_init up) (vstart (srv_new maxNumSession zb zq) [accept]) es.
Definition nevb (e : nev) : bool := match e with NCli e => evb e | NSrv e => vev_okb e | _ => true end.
Lemma nevb_ok es : forallb nevb es = true -> Forall nev_ok es.
Proof.
  intros H. apply Forall_forall. intros e He. apply (proj1 (forallb_forall _ _) H) in He. destruct e as [e|e| |]; cbn in *; auto.
  - assert (X : Forall ev_ok [e]) by (apply evb_ok; cbn; now rewrite He). now inversion X.
  - assert (X : Forall vev_ok [e]) by (apply vev_okb_ok; cbn; now rewrite He). now inversion X.
Qed.
Lemma start_any P c tr v trs : boot m_init b_init up = Some (c, tr) -> vstart (srv_new maxNumSession zb zq) [accept] = Some (v, trs) ->
  nreach P (mkNet c v 0 [] [] true) [].
Proof.
  intros Ec Ev. destruct b_init_ok as [B1 B2].
  assert (Ht : option_map snd (boot m_init b_init up) = Some ([(EStart true, [OTimer 3000000; OConnect])] ++ [(EConnected, [OStop])])) by (vm_compute; reflexivity).
  rewrite Ec in Ht. cbn [option_map snd] in Ht. injection Ht as ->.
  assert (Hs : option_map snd (vstart (srv_new maxNumSession zb zq) [accept]) = Some ([] ++ [(accept, [TArm 0 30000000])])) by (vm_compute; reflexivity).
  rewrite Ev in Hs. cbn [option_map snd] in Hs. injection Hs as ->.
  apply (nr_start P m_init b_init [EStart true] c [(EStart true, [OTimer 3000000; OConnect])] zb zq v [] 0 B1 B2); [constructor; [exact I|constructor]|exact Ec|].
  refine (vstart_reach zb zq (srv_new maxNumSession zb zq) [accept] v _ zmem _ eq_refl Ev). constructor; [exact I|constructor].
Qed.
Lemma join2_calm bo vo es h : boot m_init b_init up = bo -> vstart (srv_new maxNumSession zb zq) [accept] = vo ->
  forallb nevb es = true -> join2 calmb bo vo es = Some h -> exists s, nreach calm s h /\ n_uid s = 0.
Proof.
  intros Ec Ev Hok H. unfold join2 in H. destruct bo as [[c tr]|]; [|discriminate H]. destruct vo as [[v trs]|]; [|discriminate H].
  destruct (n_run calmb (mkNet c v 0 [] [] true) [] es) as [[s h']|] eqn:Er; [|discriminate H]. cbn [option_map snd] in H. injection H as ->.
  exists s. split; [|apply run_uid in Er; exact Er].
  exact (run_calm es _ _ _ _ (start_any calm c tr v trs Ec Ev) (nevb_ok es Hok) Er).
Qed.
Lemma join2_any bo vo es h : boot m_init b_init up = bo -> vstart (srv_new maxNumSession zb zq) [accept] = vo ->
  forallb nevb es = true -> join2 anyb bo vo es = Some h -> exists s, nreach any s h /\ n_uid s = 0.
Proof.
  intros Ec Ev Hok H. unfold join2 in H. destruct bo as [[c tr]|]; [|discriminate H]. destruct vo as [[v trs]|]; [|discriminate H].
  destruct (n_run anyb (mkNet c v 0 [] [] true) [] es) as [[s h']|] eqn:Er; [|discriminate H]. cbn [option_map snd] in H. injection H as ->.
  exists s. split; [|apply run_uid in Er; exact Er].
  exact (run_any es _ _ _ _ (start_any any c tr v trs Ec Ev) (nevb_ok es Hok) Er).
Qed.
Lemma joined_calm es h : forallb nevb es = true -> joined calmb es = Some h -> exists s, nreach calm s h /\ n_uid s = 0.
Proof. exact (join2_calm _ _ es h eq_refl eq_refl). Qed.
Lemma joined_any es h : forallb nevb es = true -> joined anyb es = Some h -> exists s, nreach any s h /\ n_uid s = 0.
Proof. exact (join2_any _ _ es h eq_refl eq_refl). Qed.

(** Read holding registers (2 registers), write one register; requester [who], transaction [tid]. *)
Definition rd (who tid : Z) : item := mkItem who (mkReq tid 3 17 0 2 0 []).
Definition wr (who tid : Z) : item := mkItem who (mkReq tid 6 17 9 0 2 [52; 18]).
Definition rep (tid err : Z) (d : list Z) : areply := mkReply 0 tid true err (Z.of_nat (length d)) d.
Definition tick : nev := NCli (ETimer true true).

(** * C113 *)
(** Along every calm history: the connection stays up, and for the requests put on the wire (a subsequence of those submitted, in
    their order) the i-th is the i-th the server hands to its application, unchanged, and the i-th reply the server sends
    is what the i-th requester is told; at most one exchange is open. *)
Theorem C113_end_to_end s h : nreach calm s h ->
  n_up s = true /\ exists its, sublist its (submitted_in h) /\ length its = length (transmitted (cli_hist h)) /\
    in_step (n_uid s) its (forwarded_in (n_uid s) h) (sent_in (n_uid s) h) (delivered_in h).
Proof. apply in_step_all. Qed.

(** Two requests, the second submitted while the first is open; the frames travel in pieces; the second reply is an exception; the
    application's second thoughts (a reply with another transaction) and another connection go on meanwhile. *)
Definition run113 : list nev :=
  [NCli (EReq (rd 1 7)); tick; NToSrv [0; 7; 0]; NCli (EReq (wr 2 8)); NSrv accept; NToSrv [0; 0; 6; 17; 3; 0; 0; 0; 2];
   NSrv (VReply (rep 7 0 [1; 2; 3; 4]) true); NToCli [0; 7; 0; 0]; NToCli [0; 7; 17; 3; 4; 2; 1; 4; 3]; tick;
   NSrv (VTimer 1); NToSrv [0; 8; 0; 0; 0; 6; 17; 6; 0; 9; 18; 52]; NSrv (VReply (rep 8 4 []) true); NToCli [0; 8; 0; 0; 0; 3; 17; 143; 4]; tick].
Example C113_case : exists s h, nreach calm s h /\ map ev_of h = run113 /\
  forwarded_in (n_uid s) h = [TReq 0 7 3 17 0 2 0 []; TReq 0 8 6 17 9 2 2 [52; 18]] /\
  delivered_in h = [ORsp 1 7 true 0 [1; 2; 3; 4]; ORsp 2 8 true 4 []].
Proof.
  destruct (joined calmb run113) as [h|] eqn:E; [|vm_compute in E; discriminate E].
  destruct (joined_calm run113 h ltac:(vm_compute; reflexivity) E) as (s & HR & Hu). exists s, h. rewrite Hu. split; [exact HR|].
  vm_compute in E. injection E as <-. vm_compute. repeat split.
Qed.

(** * C114 *)
(** From every calm history in which the pair has come to rest, every list of requests and replies the protocol can carry is
    served without failure: the application gets each request in turn, unchanged, and each requester is told the reply. *)
Theorem C114_every_dialogue_served s h js : nreach calm s h -> idle h -> Forall (job_ok (n_uid s)) js ->
  exists s' h', nreach calm s' (h ++ h') /\ idle (h ++ h') /\ submitted_in h' = map fst js /\
    Forall2 (fun j m => forwards (n_uid s) (i_req (fst j)) m) js (forwarded_in (n_uid s) h') /\
    Forall2 (fun j o => told (fst j) (snd j) o) js (delivered_in h').
Proof. intros HR Hi Hj. exact (serve_all _ _ Hj s h HR Hi eq_refl). Qed.

(** One exchange takes exactly these events: the request, the send delay, the frame, the reply, its frame, the send delay. *)
Theorem C114_one_exchange s h it fr p : nreach calm s h -> idle h -> job_ok (n_uid s) (it, p) -> encode_req (i_req it) = EncOk fr ->
  exists s' h' bs, nreach calm s' (h ++ h') /\
    map ev_of h' = [NCli (EReq it); NCli (ETimer true true); NToSrv fr; NSrv (VReply p true); NToCli bs; NCli (ETimer true true)].
Proof.
  intros HR Hi (H1 & H2 & _ & H4 & H5 & H6 & H7 & H8 & H9) He.
  destruct (serve s h it fr p HR Hi H1 H2 He H4 H5 H6 H7 H8 H9) as (s1 & h1 & bs & m & o & R1 & _ & _ & M1 & _). eauto.
Qed.

Definition jobs114 : list (item * areply) := [(rd 1 7, rep 7 0 [1; 2; 3; 4]); (wr 2 8, rep 8 4 []); (rd 1 9, rep 9 0 [5; 6; 7; 8])].
Example C114_case : exists s h, nreach calm s h /\ idle h /\ length (delivered_in h) = 2%nat /\ Forall (job_ok (n_uid s)) jobs114.
Proof.
  destruct (joined calmb run113) as [h|] eqn:E; [|vm_compute in E; discriminate E].
  destruct (joined_calm run113 h ltac:(vm_compute; reflexivity) E) as (s & HR & Hu). exists s, h. rewrite Hu. split; [exact HR|].
  vm_compute in E. injection E as <-. split; [vm_compute; reflexivity|]. split; [vm_compute; reflexivity|].
  assert (B : forall l, forallb nevb l = true -> Forall nev_ok l) by exact nevb_ok.
  assert (Q : forall j, In j jobs114 -> ev_ok (EReq (fst j)) /\ vev_ok (VReply (snd j) true)).
  { intros j Hj. assert (X : Forall nev_ok (map (fun j => NCli (EReq (fst j))) jobs114)) by (apply B; vm_compute; reflexivity).
    assert (Y : Forall nev_ok (map (fun j => NSrv (VReply (snd j) true)) jobs114)) by (apply B; vm_compute; reflexivity).
    split; [exact (proj1 (Forall_forall _ _) X (NCli (EReq (fst j))) (in_map (fun j => NCli (EReq (fst j))) _ _ Hj))|].
    exact (proj1 (Forall_forall _ _) Y (NSrv (VReply (snd j) true)) (in_map (fun j => NSrv (VReply (snd j) true)) _ _ Hj)). }
  apply Forall_forall. intros j Hj. destruct (Q j Hj) as [Q1 Q2]. unfold job_ok. split; [exact Q1|].
  clear Q1. cbn [vev_ok] in Q2. destruct Hj as [<-|[<-|[<-|[]]]]; (split; [vm_compute; discriminate|]); (split; [eexists; vm_compute; reflexivity|]);
  (split; [exact Q2|]); repeat split; vm_compute; discriminate.
Qed.

(** * C115 *)
(** When the application answers in the order in which it is asked, then what a requester is told as a success is the application's
    answer to its request.  True along calm histories: *)
Theorem C115_own_answer_partial s h o i : nreach calm s h -> nth_error (delivered_in h) i = Some o ->
  exists it m p, In it (submitted_in h) /\ nth_error (forwarded_in (n_uid s) h) i = Some m /\ nth_error (sent_in (n_uid s) h) i = Some p /\
    forwards (n_uid s) (i_req it) m /\ told it p o.
Proof.
  intros HR Ho. destruct (in_step_all s h HR) as (_ & its & Hs & _ & H1 & H2 & H3 & H4).
  assert (Hi : (i < length (delivered_in h))%nat) by (apply nth_error_Some; congruence).
  destruct (nth_error its i) as [it|] eqn:E1; [|apply nth_error_None in E1; lia].
  destruct (nth_error (forwarded_in (n_uid s) h) i) as [m|] eqn:E2; [|apply nth_error_None in E2; lia].
  destruct (nth_error (sent_in (n_uid s) h) i) as [p|] eqn:E3; [|apply nth_error_None in E3; lia].
  exists it, m, p. split; [eapply sublist_in; [exact Hs|eapply nth_error_In; eauto]|]. eauto 6.
Qed.

(** Not so when the client and the session have given up waiting (5 s each): the late answer to the abandoned request is taken for
    the answer to a later one with the same transaction id. *)
Definition rd' (who tid : Z) : item := mkItem who (mkReq tid 3 17 100 2 0 []).
Definition run115 : list nev :=
  [NCli (EReq (rd 1 7)); tick; NToSrv [0; 7; 0; 0; 0; 6; 17; 3; 0; 0; 0; 2]; tick; NSrv (VTimer 0);
   NCli (EReq (rd' 2 7)); tick; NToSrv [0; 7; 0; 0; 0; 6; 17; 3; 0; 100; 0; 2];
   NSrv (VReply (rep 7 0 [1; 2; 3; 4]) true); NToCli [0; 7; 0; 0; 0; 7; 17; 3; 4; 2; 1; 4; 3]].
Theorem C115_refuted :
  ~ (forall s h o, nreach any s h -> In o (delivered_in h) ->
       exists i it m p, In it (submitted_in h) /\ nth_error (forwarded_in (n_uid s) h) i = Some m /\ nth_error (replied_in (n_uid s) h) i = Some p /\
         forwards (n_uid s) (i_req it) m /\ told it p o).
Proof.
  intros H. destruct (joined anyb run115) as [h|] eqn:E; [|vm_compute in E; discriminate E].
  destruct (joined_any run115 h ltac:(vm_compute; reflexivity) E) as (s & HR & Hu). vm_compute in E. injection E as <-.
  specialize (H s _ (ORsp 2 7 true 0 [1; 2; 3; 4]) HR). rewrite Hu in H.
  destruct H as (i & it & m & p & H1 & H2 & H3 & H4 & H5); [vm_compute; tauto|].
  vm_compute in H2, H3. destruct i as [|[|i]]; [|discriminate H3|destruct i; discriminate H3].
  injection H2 as <-. injection H3 as <-. destruct H4 as (_ & _ & _ & _ & H4 & _).
  vm_compute in H1. destruct H1 as [<-|[<-|[]]]; [|vm_compute in H4; discriminate H4].
  vm_compute in H5. discriminate H5.
Qed.

Print Assumptions C113_end_to_end.
Print Assumptions C114_every_dialogue_served.
Print Assumptions C114_one_exchange.
Print Assumptions C115_own_answer_partial.
Print Assumptions C115_refuted.
