(** Theorems about how the services tell requests apart: C151, C152. *)
From Verif Require Import Base QueueModel PoolModel EntProofs ModbusCodecModel ModbusCodecSpec ModbusCodecProofs ModbusClientModel ModbusClientProofs
  UaCodecModel UaCodecSpec UaCodecProofs UaTcpModel UaTcpSpec UaTcpProofs UaTcpRuns UaTcpFacts UaChanModel UaChanSpec UaChanProofs UaChanRuns UaChanFacts
  UaServiceModel UaServiceSpec UaServiceProofs UaServiceRuns UaServiceFacts UaTableModel Props_UaService.
Local Open Scope Z_scope.

(** * C151 *)

(** A message numbered [id] in namespace [ns]: the standard encoding of the number, then the body. *)
Definition numbered (ns id : Z) : xnodeid := mkXn (mkNid ns (IdNum id)) None None.
Definition q_body (q : request) : list Z :=
  match q with QEnd r => s_epreq r | QCre r => s_csreq r | QAct r => s_asreq r | QClo r => s_clsreq r | QRead r => s_rdreq r end.
Definition q_numbers : list Z := [428; 461; 467; 473; 631].

Lemma numbered_wf ns id : is_u16 ns -> is_u32 id -> wf_plain (numbered ns id).
Proof. intros H1 H2. unfold wf_plain, wf_nodeid, numbered. cbn [xn_id xn_uri xn_srv n_ns n_val]. auto. Qed.
Lemma held m j l : em_data m = l -> em_len m = Z.of_nat (length l) -> forall l1 l2, l = l1 ++ l2 -> holds (mkSdu 0 (Z.to_nat (em_len m)) (eoctets m j)) 0 l1.
Proof.
  intros Hd Hl l1 l2 E. apply holds_iff. cbn [k_pkt skipn]. unfold eoctets. rewrite Hl, Nat2Z.id, Hd, firstn_all, E, <- app_assoc. eauto.
Qed.

(** The claim is false: a message that carries the number 65997, which is no request's, in namespace 0, and one with the number 461 in
    namespace 3, each create a session. *)
Definition alias (ns id : Z) (q : request) : emsg :=
  mkEm (H4 7 1 5 invalidSuid) (Z.of_nat (length (s_xnodeid (numbered ns id) ++ q_body q))) (s_xnodeid (numbered ns id) ++ q_body q).
Theorem C151_refuted : exists c1 c2,
  s_xnodeid (numbered 0 65997) = [2; 0; 0; 205; 1; 1; 0] /\ ~ In 65997 q_numbers /\
  sreach c1 [(SvInit, [SInitRsp]); (SvInd (alias 0 65997 (q_cre 11 3)) jzero 0, [ans (H4 7 1 5 invalidSuid) (create_rsp 1 0 11 3 0)])] /\
  sreach c2 [(SvInit, [SInitRsp]); (SvInd (alias 3 461 (q_cre 11 3)) jzero 0, [ans (H4 7 1 5 invalidSuid) (create_rsp 1 0 11 3 0)])].
Proof.
  destruct (souts [SvInit; SvInd (alias 0 65997 (q_cre 11 3)) jzero 0] [[SInitRsp]; [ans (H4 7 1 5 invalidSuid) (create_rsp 1 0 11 3 0)]]) as (c1 & R1);
    [vm_compute; reflexivity|vm_compute; reflexivity|].
  destruct (souts [SvInit; SvInd (alias 3 461 (q_cre 11 3)) jzero 0] [[SInitRsp]; [ans (H4 7 1 5 invalidSuid) (create_rsp 1 0 11 3 0)]]) as (c2 & R2);
    [vm_compute; reflexivity|vm_compute; reflexivity|].
  exists c1, c2. split; [vm_compute; reflexivity|]. split; [cbn; intuition discriminate|]. split; assumption.
Qed.

(** What the services go by, exactly: the number modulo 65536, in any namespace.  With the number of a request so reduced, the
    message is that request... *)
Theorem C151_alias_partial ns id m j q rest : is_u16 ns -> is_u32 id -> q_wf q -> id mod 65536 = q_type q ->
  em_data m = s_xnodeid (numbered ns id) ++ q_body q ++ rest -> em_len m = Z.of_nat (length (em_data m)) -> parse m j = PReq q.
Proof.
  intros Hn Hi Hq Hid Hd Hl. pose proof (numbered_wf ns id Hn Hi) as W.
  assert (Hh : holds (mkSdu 0 (Z.to_nat (em_len m)) (eoctets m j)) 0 (s_xnodeid (numbered ns id) ++ q_body q)).
  { eapply (held m j (em_data m) eq_refl Hl). rewrite <- app_assoc. exact Hd. }
  apply holds_app in Hh as [H1 H2]. unfold parse. rewrite (R_plain _ W _ H1). cbn [numbered xn_id n_val]. rewrite Hid.
  destruct q as [r|r|r|r|r]; cbn [q_type q_wf q_body] in *.
  - cbn [Z.eqb Pos.eqb]. rewrite (R_epreq _ Hq); [reflexivity|exact H2].
  - cbn [Z.eqb Pos.eqb]. rewrite (R_csreq _ Hq); [reflexivity|exact H2].
  - cbn [Z.eqb Pos.eqb]. rewrite (R_asreq _ Hq); [reflexivity|exact H2].
  - cbn [Z.eqb Pos.eqb]. rewrite (R_clsreq _ Hq); [reflexivity|exact H2].
  - cbn [Z.eqb Pos.eqb]. rewrite (R_rdreq _ Hq); [reflexivity|exact H2].
Qed.
(** ... and is served as it... *)
Theorem C151_served_partial c tr ns id m j now q rest : sreach c tr -> sev_ok (SvInd m j now) -> running tr = true ->
  is_u16 ns -> is_u32 id -> q_wf q -> id mod 65536 = q_type q ->
  em_data m = s_xnodeid (numbered ns id) ++ q_body q ++ rest -> em_len m = Z.of_nat (length (em_data m)) -> ~ stray (em_hdr m) q ->
  exists c' os, svc_step c (SvInd m j now) = Some (c', os) /\ served tr (em_hdr m) now q os.
Proof.
  intros HR He Hr Hn Hi Hq Hid Hd Hl. apply (request_step c tr m j now q HR He Hr). eapply C151_alias_partial; eauto.
Qed.
(** ... and with any other number it is no request: whatever follows, nothing happens. *)
Theorem C151_unknown_partial c tr ns id m j now rest : sreach c tr -> sev_ok (SvInd m j now) ->
  is_u16 ns -> is_u32 id -> ~ In (id mod 65536) q_numbers ->
  em_data m = s_xnodeid (numbered ns id) ++ rest -> em_len m = Z.of_nat (length (em_data m)) ->
  svc_step c (SvInd m j now) = Some (c, []).
Proof.
  intros HR (Hm & Hj & _) Hn Hi Hid Hd Hl. destruct c as [v|]; [|reflexivity]. rewrite step_ind, ind_eq by auto.
  replace (parse m j) with POther; [reflexivity|]. pose proof (numbered_wf ns id Hn Hi) as W.
  pose proof (held m j (em_data m) eq_refl Hl _ _ Hd) as H1. unfold parse. rewrite (R_plain _ W _ H1). cbn [numbered xn_id n_val].
  unfold q_numbers in Hid. cbn [In] in Hid.
  destruct (Z.eqb_spec (id mod 65536) 428) as [F|_]; [exfalso; apply Hid; rewrite F; auto 7|]. destruct (Z.eqb_spec (id mod 65536) 461) as [F|_]; [exfalso; apply Hid; rewrite F; auto 7|].
  destruct (Z.eqb_spec (id mod 65536) 467) as [F|_]; [exfalso; apply Hid; rewrite F; auto 7|]. destruct (Z.eqb_spec (id mod 65536) 473) as [F|_]; [exfalso; apply Hid; rewrite F; auto 7|].
  destruct (Z.eqb_spec (id mod 65536) 631) as [F|_]; [exfalso; apply Hid; rewrite F; auto 7|]. reflexivity.
Qed.
(** Conversely every message that is answered starts with a number that is a request's modulo 65536. *)
Theorem C151_only_partial c tr m j now c' os r : sreach c tr -> sev_ok (SvInd m j now) -> svc_step c (SvInd m j now) = Some (c', os) -> In (SSend r) os ->
  exists x b id, dec_xnodeid xnodeid0 (mkSdu 0 (Z.to_nat (em_len m)) (eoctets m j)) = DOk x b /\ n_val (xn_id x) = IdNum id /\
    In (id mod 65536) q_numbers /\ rtype r = id mod 65536 + 3.
Proof.
  intros HR He Hs Hi. destruct (C48_service _ _ _ _ _ _ HR He Hs Hi) as (m0 & j0 & n0 & q & E & Hp & _ & _ & _ & _ & Ht & _). injection E as <- <- <-.
  unfold parse in Hp. destruct (dec_xnodeid xnodeid0 _) as [x b| | |] eqn:Ex; try discriminate Hp.
  destruct (n_val (xn_id x)) as [id| | |] eqn:En; try discriminate Hp. exists x, b, id. split; [reflexivity|]. split; [exact En|].
  rewrite Ht. unfold q_numbers. cbn [In].
  destruct (Z.eqb_spec (id mod 65536) 428) as [F|_].
  { destruct (dec_epreq epreq0 b); try discriminate Hp. injection Hp as <-. cbn [q_type]. rewrite F. auto. }
  destruct (Z.eqb_spec (id mod 65536) 461) as [F|_].
  { destruct (dec_csreq csreq0 b); try discriminate Hp. injection Hp as <-. cbn [q_type]. rewrite F. auto. }
  destruct (Z.eqb_spec (id mod 65536) 467) as [F|_].
  { destruct (dec_asreq asreq0 b); try discriminate Hp. injection Hp as <-. cbn [q_type]. rewrite F. auto. }
  destruct (Z.eqb_spec (id mod 65536) 473) as [F|_].
  { destruct (dec_clsreq clsreq0 b); try discriminate Hp. injection Hp as <-. cbn [q_type]. rewrite F. auto 6. }
  destruct (Z.eqb_spec (id mod 65536) 631) as [F|_].
  { destruct (dec_rdreq rdreq0 b); try discriminate Hp. injection Hp as <-. cbn [q_type]. rewrite F. auto 7. }
  discriminate Hp.
Qed.
Example C151_case : parse (alias 3 65964 (q_end 5)) jzero = PReq (q_end 5) /\ parse (alias 0 4294902228 (q_end 5)) jzero = POther /\
  parse (alias 0 66167 (q_rd 1 9 [])) jzero = PReq (q_rd 1 9 []).
Proof. split; [|split]; vm_compute; reflexivity. Qed.

(** * C152 *)

(** Look-ups one after the other: the table afterwards, and what each found. *)
Fixpoint lookups (t : table) (ids : list Z) : table * list (option service) :=
  match ids with
  | [] => (t, [])
  | i :: r => let '(t1, s) := tbl_ind t i in let '(t2, ss) := lookups t1 r in (t2, s :: ss)
  end.
(** The service a number stands for. *)
Definition service_of (n : Z) : option service :=
  if n =? 428 then Some VEndpoints else if n =? 461 then Some VCreate else if n =? 467 then Some VActivate else if n =? 473 then Some VClose
  else if n =? 631 then Some VRead else None.

Lemma find_app t k a s : tbl_find (t ++ [(a, s)]) k = match tbl_find t k with Some x => Some x | None => if a =? k then Some s else None end.
Proof.
  induction t as [|[b x] t IH]; cbn [tbl_find app]; [reflexivity|]. destruct (b =? k); auto.
Qed.
Lemma find_in t k : tbl_find t k = None <-> ~ In k (map fst t).
Proof.
  induction t as [|[b x] t IH]; cbn [tbl_find map fst In]; [tauto|]. destruct (Z.eqb_spec b k) as [E|E]; [|tauto].
  split; [discriminate|tauto].
Qed.
(** The table's invariant: an entry leads to the service its number stands for, no number has two entries. *)
Definition tinv (t : table) : Prop :=
  (forall k, tbl_find t k = None -> service_of k = None) /\ (forall k s, tbl_find t k = Some s -> s = service_of k) /\ NoDup (map fst t).
Lemma tinv_new : tinv tbl_new.
Proof.
  change tbl_new with [(428, Some VEndpoints); (461, Some VCreate); (473, Some VClose); (467, Some VActivate); (631, Some VRead)].
  split; [|split].
  - intros k. cbn [tbl_find]. unfold service_of. rewrite (Z.eqb_sym k 428), (Z.eqb_sym k 461), (Z.eqb_sym k 467), (Z.eqb_sym k 473), (Z.eqb_sym k 631).
    destruct (428 =? k); [discriminate|]. destruct (461 =? k); [discriminate|]. destruct (473 =? k); [discriminate|]. destruct (467 =? k); [discriminate|].
    destruct (631 =? k); [discriminate|]. reflexivity.
  - intros k s. cbn [tbl_find].
    destruct (Z.eqb_spec 428 k) as [<-|_]; [intros H; injection H as <-; reflexivity|].
    destruct (Z.eqb_spec 461 k) as [<-|_]; [intros H; injection H as <-; reflexivity|].
    destruct (Z.eqb_spec 473 k) as [<-|_]; [intros H; injection H as <-; reflexivity|].
    destruct (Z.eqb_spec 467 k) as [<-|_]; [intros H; injection H as <-; reflexivity|].
    destruct (Z.eqb_spec 631 k) as [<-|_]; [intros H; injection H as <-; reflexivity|]. discriminate.
  - cbn [map fst]. repeat constructor; cbn; intuition discriminate.
Qed.
Lemma tinv_ind t id : tinv t -> tinv (fst (tbl_ind t id)) /\ snd (tbl_ind t id) = service_of (id mod 65536) /\
  map fst (fst (tbl_ind t id)) = if in_dec Z.eq_dec (id mod 65536) (map fst t) then map fst t else map fst t ++ [id mod 65536].
Proof.
  intros (H1 & H2 & H3). unfold tbl_ind, tbl_index, u16. set (k := id mod 65536). clearbody k.
  destruct (tbl_find t k) as [s|] eqn:E; cbn [fst snd].
  - split; [repeat split; auto|]. split; [eauto|]. destruct (in_dec Z.eq_dec k (map fst t)) as [_|N]; [reflexivity|]. apply find_in in N. congruence.
  - pose proof (H1 _ E) as Hk. apply find_in in E as N. split; [|split].
    + split; [|split].
      * intros k0. rewrite find_app. destruct (tbl_find t k0) eqn:E0; [discriminate|]. destruct (k =? k0); [discriminate|]. auto.
      * intros k0 s. rewrite find_app. destruct (tbl_find t k0) eqn:E0; [intros F; injection F as <-; eauto|].
        destruct (Z.eqb_spec k k0) as [<-|]; [|discriminate]. intros F. injection F as <-. now rewrite Hk.
      * rewrite map_app. cbn [map fst].
        apply (NoDup_Add (a := k) (l := map fst t)); [|auto]. pose proof (Add_app k (map fst t) []) as A. rewrite app_nil_r in A. exact A.
    + now rewrite Hk.
    + destruct (in_dec Z.eq_dec k (map fst t)); [contradiction|]. now rewrite map_app.
Qed.
(** Numbers not yet met. *)
Fixpoint fresh_nums (seen : list Z) (ids : list Z) : list Z :=
  match ids with
  | [] => []
  | i :: r => if in_dec Z.eq_dec (i mod 65536) seen then fresh_nums seen r else i mod 65536 :: fresh_nums (seen ++ [i mod 65536]) r
  end.
Lemma lookups_inv ids : forall t, tinv t -> tinv (fst (lookups t ids)) /\ snd (lookups t ids) = map (fun i => service_of (i mod 65536)) ids /\
  map fst (fst (lookups t ids)) = map fst t ++ fresh_nums (map fst t) ids.
Proof.
  induction ids as [|i ids IH]; intros t H; cbn [lookups fresh_nums map]; [rewrite app_nil_r; auto|].
  destruct (tinv_ind t i H) as (H1 & H2 & H3). destruct (tbl_ind t i) as [t1 s]. cbn [fst snd] in *.
  destruct (IH t1 H1) as (K1 & K2 & K3). destruct (lookups t1 ids) as [t2 ss]. cbn [fst snd] in *. split; [auto|]. split; [congruence|].
  rewrite K3, H3. destruct (in_dec Z.eq_dec (i mod 65536) (map fst t)); [reflexivity|]. rewrite <- app_assoc. reflexivity.
Qed.

(** Whatever numbers came before, each look-up finds the service its number stands for, or none: what earlier requests left in the
    table makes no difference. *)
Theorem C152_lookup ids : snd (lookups tbl_new ids) = map (fun i => service_of (i mod 65536)) ids.
Proof. apply lookups_inv, tinv_new. Qed.
(** The request handling of the service model, which has no table, is the handling through the table in whatever state it is. *)
Theorem C152_dispatch ids v h id b now :
  svc_dispatch v h (u16 id) b now =
  match snd (tbl_ind (fst (lookups tbl_new ids)) id) with
  | None => Some (v, [])
  | Some VEndpoints => svc_dispatch v h 428 b now
  | Some VCreate => svc_dispatch v h 461 b now
  | Some VActivate => svc_dispatch v h 467 b now
  | Some VClose => svc_dispatch v h 473 b now
  | Some VRead => svc_dispatch v h 631 b now
  end.
Proof.
  destruct (lookups_inv ids tbl_new tinv_new) as (H & _). destruct (tinv_ind _ id H) as (_ & -> & _). unfold service_of. fold (u16 id).
  destruct (Z.eqb_spec (u16 id) 428) as [->|N1]; [reflexivity|]. destruct (Z.eqb_spec (u16 id) 461) as [->|N2]; [reflexivity|].
  destruct (Z.eqb_spec (u16 id) 467) as [->|N3]; [reflexivity|]. destruct (Z.eqb_spec (u16 id) 473) as [->|N4]; [reflexivity|].
  destruct (Z.eqb_spec (u16 id) 631) as [->|N5]; [reflexivity|]. unfold svc_dispatch.
  rewrite (proj2 (Z.eqb_neq _ _) N1), (proj2 (Z.eqb_neq _ _) N2), (proj2 (Z.eqb_neq _ _) N3), (proj2 (Z.eqb_neq _ _) N4), (proj2 (Z.eqb_neq _ _) N5). reflexivity.
Qed.
(** The table grows: exactly one entry for every number, modulo 65536, that is not a service's and that some request carried... *)
Definition strays (ids : list Z) : list Z := filter (fun n => if in_dec Z.eq_dec n q_numbers then false else true) (nodup Z.eq_dec (map (fun i => i mod 65536) ids)).
Lemma fresh_in ids : forall seen n, In n (fresh_nums seen ids) <-> In n (map (fun i => i mod 65536) ids) /\ ~ In n seen.
Proof.
  induction ids as [|i ids IH]; intros seen n; cbn [fresh_nums map In]; [tauto|].
  destruct (in_dec Z.eq_dec (i mod 65536) seen) as [Y|N]; cbn [In]; rewrite IH.
  - split; [tauto|]. intros [[<-|H] K]; tauto.
  - rewrite in_app_iff. cbn [In]. destruct (Z.eq_dec (i mod 65536) n) as [<-|E]; tauto.
Qed.
Lemma fresh_nodup ids : forall seen, NoDup (fresh_nums seen ids).
Proof.
  induction ids as [|i ids IH]; intros seen; cbn [fresh_nums]; [constructor|]. destruct (in_dec Z.eq_dec (i mod 65536) seen); [auto|].
  constructor; [|auto]. rewrite fresh_in, in_app_iff. cbn [In]. tauto.
Qed.
Theorem C152_grows_partial ids : length (fst (lookups tbl_new ids)) = (5 + length (strays ids))%nat.
Proof.
  destruct (lookups_inv ids tbl_new tinv_new) as (_ & _ & H). rewrite <- (map_length fst (fst (lookups tbl_new ids))), H, app_length.
  change (length (map fst tbl_new)) with 5%nat. f_equal.
  assert (L : forall a b : list Z, NoDup a -> NoDup b -> (forall n, In n a <-> In n b) -> length a = length b).
  { intros a b Ha Hb E. apply Nat.le_antisymm; apply NoDup_incl_length; auto; intros n Hn; now apply E. }
  apply L; [apply fresh_nodup|apply NoDup_filter, NoDup_nodup|]. intros n. unfold strays. rewrite fresh_in, filter_In, nodup_In.
  assert (Q : In n (map fst tbl_new) <-> In n q_numbers) by (cbn; tauto). rewrite Q.
  destruct (in_dec Z.eq_dec n q_numbers); intuition congruence.
Qed.
(** ... so an unknown number does leave a trace... *)
Theorem C152_refuted : ~ (forall ids, length (fst (lookups tbl_new ids)) = length tbl_new) /\
  (forall k, Z.of_nat k <= 64536 -> exists ids, length ids = k /\ length (fst (lookups tbl_new ids)) = (5 + k)%nat).
Proof.
  split.
  - intros H. specialize (H [900]). vm_compute in H. discriminate.
  - intros k Hk. exists (map (fun i => 1000 + Z.of_nat i) (seq 0 k)). split; [now rewrite map_length, seq_length|]. rewrite C152_grows_partial. f_equal. unfold strays.
    assert (M : map (fun i => i mod 65536) (map (fun i => 1000 + Z.of_nat i) (seq 0 k)) = map (fun i => 1000 + Z.of_nat i) (seq 0 k)).
    { rewrite map_map. apply map_ext_in. intros a Ha. apply in_seq in Ha. apply Z.mod_small. lia. }
    rewrite M, nodup_fixed_point by (apply FinFun.Injective_map_NoDup; [intros a b E; lia|apply seq_NoDup]).
    assert (F : forall l, (forall n, In n l -> ~ In n q_numbers) -> filter (fun n => if in_dec Z.eq_dec n q_numbers then false else true) l = l).
    { induction l as [|a l IH]; intros N; [reflexivity|]. cbn [filter]. destruct (in_dec Z.eq_dec a q_numbers) as [Y|_].
      - exfalso. apply (N a); cbn; auto. - rewrite IH; [reflexivity|]. intros n Hn. apply N. cbn. auto. }
    rewrite F; [now rewrite map_length, seq_length|]. intros n Hn. apply in_map_iff in Hn as (a & <- & Ha). apply in_seq in Ha. unfold q_numbers. cbn [In]. lia.
Qed.
(** ... but there is a limit, for however many requests. *)
Theorem C152_bounded_partial ids : (length (fst (lookups tbl_new ids)) <= Z.to_nat 65536)%nat.
Proof.
  destruct (lookups_inv ids tbl_new tinv_new) as ((_ & _ & N) & _ & H).
  rewrite <- (map_length fst). rewrite <- (seq_length (Z.to_nat 65536) 0), <- (map_length Z.of_nat). apply NoDup_incl_length; [exact N|].
  intros n Hn. rewrite H in Hn. apply in_map_iff. exists (Z.to_nat n).
  assert (R : 0 <= n < 65536).
  { apply in_app_iff in Hn as [Hn|Hn]; [change (In n [428; 461; 473; 467; 631]) in Hn; cbn [In] in Hn; lia|].
    apply fresh_in in Hn as [Hn _]. apply in_map_iff in Hn as (i & <- & _). apply Z.mod_pos_bound. lia. }
  split; [lia|]. apply in_seq. split; [lia|]. rewrite Nat.add_0_l. apply Z2Nat.inj_lt; lia.
Qed.
Example C152_case : lookups tbl_new [900; 461; 66436; 901; 900] =
  (tbl_new ++ [(900, None); (901, None)], [None; Some VCreate; None; None; None]) /\ strays [900; 461; 66436; 901; 900] = [901; 900].
Proof. split; vm_compute; reflexivity. Qed.

Print Assumptions C151_refuted.
Print Assumptions C151_alias_partial.
Print Assumptions C151_served_partial.
Print Assumptions C151_unknown_partial.
Print Assumptions C151_only_partial.
Print Assumptions C152_lookup.
Print Assumptions C152_dispatch.
Print Assumptions C152_grows_partial.
Print Assumptions C152_refuted.
Print Assumptions C152_bounded_partial.
