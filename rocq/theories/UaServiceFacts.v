(** Facts about single steps and runs of the service layer that the theorems use. *)
From Verif Require Import Base QueueModel PoolModel EntProofs ModbusCodecModel ModbusCodecSpec ModbusCodecProofs ModbusClientModel ModbusClientProofs
  UaCodecModel UaCodecSpec UaCodecProofs UaTcpModel UaTcpSpec UaTcpProofs UaTcpRuns UaTcpFacts UaChanModel UaChanSpec UaChanProofs UaChanRuns UaChanFacts
  UaServiceModel UaServiceSpec UaServiceProofs UaServiceRuns.
Local Open Scope Z_scope.

(** * Standard encodings are recognised *)
Definition type_id (t : Z) : xnodeid := mkXn (mkNid 0 (IdNum t)) None None.
Lemma parse_of m j q : q_wf q -> holds (mkSdu 0 (Z.to_nat (em_len m)) (eoctets m j)) 0 (q_octets q) -> parse m j = PReq q.
Proof.
  intros Hq Hh. unfold parse. set (b := mkSdu 0 (Z.to_nat (em_len m)) (eoctets m j)) in *.
  assert (W : wf_plain (type_id (q_type q))).
  { unfold wf_plain, wf_nodeid, type_id. cbn [xn_id xn_uri xn_srv n_ns n_val]. unfold is_u16, is_u32. destruct q; cbn; repeat split; lia. }
  assert (S : [1; 0] ++ le_bytes 2 (q_type q) = s_xnodeid (type_id (q_type q))) by (destruct q; vm_compute; reflexivity).
  unfold q_octets in Hh. rewrite app_assoc, S in Hh. apply holds_app in Hh as [H1 H2].
  rewrite (R_plain _ W b H1). cbn [type_id xn_id n_val].
  destruct q as [r|r|r|r|r]; cbn [q_type q_wf] in *.
  - cbn [Z.eqb Pos.eqb]. rewrite (R_epreq _ Hq); [reflexivity|exact H2].
  - cbn [Z.eqb Pos.eqb]. rewrite (R_csreq _ Hq); [reflexivity|exact H2].
  - cbn [Z.eqb Pos.eqb]. rewrite (R_asreq _ Hq); [reflexivity|exact H2].
  - cbn [Z.eqb Pos.eqb]. rewrite (R_clsreq _ Hq); [reflexivity|exact H2].
  - cbn [Z.eqb Pos.eqb]. rewrite (R_rdreq _ Hq); [reflexivity|exact H2].
Qed.
Lemma parse_whole m j q : q_wf q -> em_data m = q_octets q -> em_len m = Z.of_nat (length (q_octets q)) -> parse m j = PReq q.
Proof.
  intros Hq Hd Hl. apply parse_of; [auto|]. apply holds_iff. cbn [k_pkt skipn]. unfold eoctets. rewrite Hl, Hd, Nat2Z.id, firstn_all. eauto.
Qed.

(** * Runs *)
Definition sev_okb (e : sev) : bool := match e with SvInd m j now => emsgb m && umemb j && i64b now | _ => true end.
Lemma sev_okb_ok e : sev_okb e = true -> sev_ok e.
Proof.
  destruct e; cbn [sev_okb sev_ok]; auto. intros H. do 2 (apply andb_prop in H as [H ?]). auto using emsgb_ok, umemb_ok, i64b_ok.
Qed.
Fixpoint runs {S E O} (step : S -> E -> option (S * list O)) (c : S) (es : list E) : option (S * list (list O)) :=
  match es with
  | [] => Some (c, [])
  | e :: r => match step c e with
              | Some (c1, os) => match runs step c1 r with Some (c2, oss) => Some (c2, os :: oss) | None => None end
              | None => None
              end
  end.
Notation srun := (runs svc_step).
Lemma srun_reach es : forall c tr c' oss, sreach c tr -> forallb sev_okb es = true -> srun c es = Some (c', oss) -> sreach c' (tr ++ combine es oss).
Proof.
  induction es as [|e es IH]; intros c tr c' oss HR Hok H; cbn [runs] in H.
  - apply some2 in H as (<- & <-). now rewrite app_nil_r.
  - destruct (svc_step c e) as [[v1 os]|] eqn:Es; [|discriminate]. destruct (srun v1 es) as [[v2 tr2]|] eqn:Er; [|discriminate].
    apply some2 in H as (<- & <-). cbn [forallb] in Hok. apply andb_prop in Hok as [H1 H2]. cbn [combine].
    replace (tr ++ (e, os) :: combine es tr2) with ((tr ++ [(e, os)]) ++ combine es tr2) by (rewrite <- app_assoc; reflexivity).
    eapply IH; eauto. econstructor; eauto using sev_okb_ok.
Qed.
Lemma souts es oss : forallb sev_okb es = true -> option_map snd (srun None es) = Some oss -> exists c, sreach c (combine es oss).
Proof.
  intros Hok H. destruct (srun None es) as [[c os]|] eqn:E; [|discriminate]. cbn [option_map snd] in H. injection H as <-.
  exists c. apply (srun_reach es None [] c os); auto. constructor.
Qed.
Lemma sreach_snoc c tr e os : sreach c (tr ++ [(e, os)]) -> exists c0, sreach c0 tr /\ sev_ok e /\ svc_step c0 e = Some (c, os).
Proof.
  intros H. inversion H as [E|c0 tr0 e0 c1 os0 R He Hs E1 E2].
  - destruct tr; discriminate.
  - apply app_inj_tail in E2 as [-> E2]. injection E2 as -> ->. eauto.
Qed.
Lemma souts_last es oss e os : forallb sev_okb (es ++ [e]) = true -> length es = length oss ->
  option_map snd (srun None (es ++ [e])) = Some (oss ++ [os]) ->
  exists c c', sreach c (combine es oss) /\ sev_ok e /\ svc_step c e = Some (c', os) /\ sreach c' (combine es oss ++ [(e, os)]).
Proof.
  intros Hok Hl H. apply (souts _ _ Hok) in H as [c' R].
  assert (E : combine (es ++ [e]) (oss ++ [os]) = combine es oss ++ [(e, os)]).
  { clear - Hl. revert oss Hl. induction es as [|x es IH]; intros [|y oss] Hl; try discriminate; [reflexivity|].
    cbn. f_equal. apply IH. now injection Hl. }
  rewrite E in R. pose proof R as R'. apply sreach_snoc in R as (v & R & A & B). eauto 8.
Qed.
(** The next event after a run leads outside the defined behaviour. *)
Lemma souts_undef es oss e : forallb sev_okb (es ++ [e]) = true ->
  match srun None es with Some (c, os) => match svc_step c e with None => Some os | Some _ => None end | None => None end = Some oss ->
  exists c, sreach c (combine es oss) /\ sev_ok e /\ svc_step c e = None.
Proof.
  intros Hok H. rewrite forallb_app in Hok. apply andb_prop in Hok as [H1 H2]. cbn [forallb] in H2. apply andb_prop in H2 as [H2 _].
  destruct (srun None es) as [[c os]|] eqn:E; [|discriminate]. destruct (svc_step c e) eqn:Es; [discriminate|]. injection H as <-.
  exists c. split; [|auto using sev_okb_ok]. apply (srun_reach es None [] c os); auto. constructor.
Qed.

(** * Any reply *)
Definition is_send (o : sout) : bool := match o with SSend _ => true | _ => false end.
Lemma only_ind c tr e c' os r : sreach c tr -> sev_ok e -> svc_step c e = Some (c', os) -> In (SSend r) os ->
  exists m j now q, e = SvInd m j now /\ running tr = true /\ parse m j = PReq q /\ served tr (em_hdr m) now q os /\ hdr_ok (q_hdr q).
Proof.
  intros HR He Hs Hi. destruct e as [| |m j now|].
  - apply step_init in Hs as (v & _ & _ & ->). cbn in Hi. intuition discriminate.
  - apply step_config in Hs as (_ & ->). destruct Hi.
  - destruct (ind_served _ _ _ _ _ _ _ HR He Hs) as [[_ ->]|[Hr [(q & Eq & Sv & _)|[[_ ->]|[_ ->]]]]]; try (cbn in Hi; intuition discriminate).
    exists m, j, now, q. split; [auto|]. split; [auto|]. split; [auto|]. split; [auto|]. destruct He as (Hm & Hj & _). eapply parse_hdr; eauto.
  - apply step_release in Hs as (_ & ->). cbn in Hi. intuition discriminate.
Qed.
(** What a request in a running component leads to, exactly. *)
Lemma request_step c tr m j now q : sreach c tr -> sev_ok (SvInd m j now) -> running tr = true -> parse m j = PReq q ->
  (stray (em_hdr m) q -> svc_step c (SvInd m j now) = None) /\
  (~ stray (em_hdr m) q -> exists c' os, svc_step c (SvInd m j now) = Some (c', os) /\ served tr (em_hdr m) now q os).
Proof.
  intros HR He Hr Hp. pose proof (proj1 (running_iff _ _ HR) Hr) as [v ->]. apply sreach_inv in HR. rewrite step_ind.
  pose proof (ind_ok v tr m j now HR He) as X. rewrite Hp in X. destruct X as [(v' & os & E & _ & Sv & N)|[E N]]; rewrite E.
  - split; [tauto|eauto].
  - split; [auto|tauto].
Qed.
