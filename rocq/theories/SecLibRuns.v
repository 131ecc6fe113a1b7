(** Computed histories of the secure channel library, for the examples. *)
From Verif Require Import Base ModbusCodecSpec ModbusClientModel UaCodecModel UaCodecSpec UaTcpModel UaTcpSpec UaTcpFacts UaChanSpec ProtoConnModel ProtoConnSpec ProtoConnFacts SecLibModel SecLibSpec.
Local Open Scope Z_scope.

Definition u32b (z : Z) : bool := (0 <=? z) && (z <? 4294967296).
Definition byteb (z : Z) : bool := (0 <=? z) && (z <? 256).
Definition body_okb (u : list Z * option nat) : bool := forallb byteb (fst u) && (Z.of_nat (length (fst u)) <=? 4072).
Definition sev_okb (e : sev) : bool :=
  match e with
  | SvOpen _ _ _ rnd => 0 <=? rnd
  | SvSend body w => body_okb (body, w)
  | SvConnected _ us | SvError us | SvTimer us => forallb body_okb us
  | SvData r _ rnd _ _ _ us => (match r with RxBytes bs => forallb byteb bs | _ => true end) && (0 <=? rnd) && forallb body_okb us
  end.
Lemma bytesb_ok l : forallb byteb l = true -> bytes_ok l.
Proof. intros H. apply Forall_forall. intros z Hz. rewrite forallb_forall in H. specialize (H z Hz). unfold byteb in H. unfold is_byte. lia. Qed.
Lemma body_okb_ok u : body_okb u = true -> body_ok u.
Proof. unfold body_okb, body_ok. intros H. apply andb_prop in H as [H1 H2]. split; [now apply bytesb_ok|lia]. Qed.
Lemma bodies_ok us : forallb body_okb us = true -> Forall body_ok us.
Proof. intros H. apply Forall_forall. intros u Hu. rewrite forallb_forall in H. auto using body_okb_ok. Qed.
Lemma sev_okb_ok e : sev_okb e = true -> sev_ok e.
Proof.
  destruct e as [| | |[]| |]; cbn [sev_okb sev_ok]; intros H; auto using body_okb_ok, bodies_ok; try lia;
    apply andb_prop in H as [H H3]; apply andb_prop in H as [H1 H2]; (split; [auto using bytesb_ok|split; [lia|auto using bodies_ok]]).
Qed.
Lemma srun_reach role b0 ini es : forall x tr y oss, sreach role b0 ini x tr -> forallb sev_okb es = true -> srun role x es = Some (y, oss) ->
  sreach role b0 ini y (tr ++ combine es oss).
Proof.
  induction es as [|e es IH]; intros x tr y oss R F H; cbn [srun] in H.
  - injection H as <- <-. cbn. now rewrite app_nil_r.
  - cbn [forallb] in F. apply andb_prop in F as [F1 F2]. destruct (s_enabled x e) eqn:En; [|discriminate H].
    destruct (s_step role x e) as [[[x1 o] t]|] eqn:St; [|discriminate H]. destruct (srun role x1 es) as [[x2 os]|] eqn:Er; [|discriminate H].
    injection H as <- <-. cbn [combine]. replace (tr ++ (e, o) :: combine es os) with ((tr ++ [(e, o)]) ++ combine es os) by now rewrite <- app_assoc.
    eapply IH; eauto. eapply sr_step; eauto using sev_okb_ok.
Qed.
(** A computed history: its outputs, the channel's state, and one more event. *)
Definition sget (role : prole) (b0 : list Z) (ini : Z * Z * Z * Z * Z) (es : list sev) : option (list s_out) :=
  option_map snd (srun role (sch_new b0 ini) es).
Lemma sget_from role b0 ini es oss : umem_ok b0 -> ini_ok ini -> forallb sev_okb es = true -> sget role b0 ini es = Some oss ->
  exists x, sreach role b0 ini x (combine es oss) /\ srun role (sch_new b0 ini) es = Some (x, oss).
Proof.
  intros M I F H. unfold sget in H. destruct (srun role (sch_new b0 ini) es) as [[x o]|] eqn:E; [|discriminate H]. cbn in H. injection H as <-.
  exists x. split; [|reflexivity]. apply (srun_reach role b0 ini es (sch_new b0 ini) [] x o); auto. now constructor.
Qed.
Definition sthen (role : prole) (b0 : list Z) (ini : Z * Z * Z * Z * Z) (es : list sev) (e : sev) : option (option (s_out * bool)) :=
  match srun role (sch_new b0 ini) es with
  | Some (x, _) => if s_enabled x e then Some (option_map (fun y => (snd (fst y), snd y)) (s_step role x e)) else None
  | None => None
  end.
Lemma sthen_step role b0 ini es e x oss r : srun role (sch_new b0 ini) es = Some (x, oss) -> sthen role b0 ini es e = Some r ->
  s_enabled x e = true /\ match r with None => s_step role x e = None | Some (o, t) => exists x', s_step role x e = Some (x', o, t) end.
Proof.
  unfold sthen. intros -> H. destruct (s_enabled x e); [|discriminate H]. split; [reflexivity|]. injection H as <-.
  destruct (s_step role x e) as [[[x' o] t]|]; [cbn; eauto|reflexivity].
Qed.

Definition zbuf : list Z := repeat 0 (Z.to_nat 4096).
Lemma zbuf_ok : umem_ok zbuf.
Proof.
  split; [unfold zbuf; rewrite repeat_length; lia|]. apply Forall_forall. intros x Hx. apply repeat_spec in Hx as ->. unfold is_byte. lia.
Qed.
Definition zini : Z * Z * Z * Z * Z := (0, 0, 0, 0, 0).
Lemma zini_ok : ini_ok zini.
Proof. unfold zini, ini_ok, is_u32. lia. Qed.
Definition whole : option nat := Some (Z.to_nat 4096).
Definition rx_ev (bs : list Z) (us : list (list Z * option nat)) : sev := SvData (RxBytes bs) whole 77 0 0 0 us.
(** A server: accept, hello, open request. *)
Definition hel : list Z := [72; 69; 76; 70] ++ le_bytes 4 32 ++ repeat 0 24.
Definition ack : list Z := [65; 67; 75; 70] ++ le_bytes 4 28 ++ repeat 0 20.
Definition sv_open : list sev := [SvOpen true true true 55; rx_ev hel []; rx_ev opn_req []].
(** A request: token, sequence number, request id, body. *)
Definition req_of (tok seq req : Z) (body : list Z) : list Z := msg_pkt 55 tok seq req body.
