(** When the Modbus component is left behind by a stop, exactly. *)
From Verif Require Import Base QueueModel MsgStorageModel ModbusCodecModel ModbusClientModel ModbusServerModel ModbusCompModel ControllerModel RoutingModel.
From Verif Require Import AppModel AppSpec AppProofs AppBound AppFacts.
Local Open Scope Z_scope.

Lemma asked_app g : forall tr s b s' e, arun g s tr = Some s' ->
  asked g s (tr ++ [e]) b = match astep g s' e with
    | ANext s2 => match e with ATakeC _ | ATick => fold_left asks (x_c (p_out s2)) (asked g s tr b) | _ => asked g s tr b end
    | _ => asked g s tr b end.
Proof.
  induction tr as [|x tr IH]; intros s b s' e H; cbn [List.app asked arun] in *.
  - injection H as <-. destruct (astep g s e); reflexivity.
  - destruct (astep g s x) as [| | |s1]; try discriminate H. now apply IH.
Qed.
Lemma areach_run g s tr : areach g s tr -> arun g app0 tr = Some s.
Proof.
  induction 1 as [|s tr e s' _ IH _ H]; [reflexivity|]. revert IH. generalize app0 as s0. induction tr as [|x tr IH]; intros s0 E; cbn [List.app arun] in *.
  - injection E as ->. now rewrite H.
  - destruct (astep g s0 x); try discriminate E. now apply IH.
Qed.

Record Lft (s : app) (b : bool) : Prop := {
  lf_fold : fold_left mupf (mstream s) (mup s) = b;
  lf_outu : Forall plain (x_u (p_out s));
  lf_outm : Forall plain (x_m (p_out s))
}.
Lemma lft_step g s e s' b : Lft s b -> granted s e -> astep g s e = ANext s' ->
  Lft s' (match e with ATakeC _ | ATick => fold_left asks (x_c (p_out s')) b | _ => b end).
Proof.
  intros [I1 I2 I3] G H.
  assert (K : forall k q c os, idle s RCtrl = true -> x_m q = x_m (p_q s) -> k_step g (p_ctrl s) k = Some (c, os) ->
     Lft (mkApp c (p_modbus s) (p_port s) (p_chan s) (p_svc s) q (set_r (p_out s) RCtrl (flat_map k_sends os))) (fold_left asks (flat_map k_sends os) b)).
  { intros k q c os Hi Hq E. split; cbn [set_r x_u x_m p_out]; try assumption. unfold mstream, mup. cbn [p_ctrl p_q p_out p_modbus set_r x_c]. rewrite Hq.
    unfold idle in Hi. cbn [at_r] in Hi. destruct (x_c (p_out s)) eqn:Ec; [|discriminate Hi]. unfold mstream in I1. rewrite Ec, app_nil_r in I1. rewrite fold_left_app. unfold mup in I1. rewrite I1. reflexivity. }
  assert (M : forall ev q, idle s RModbus = true -> (fold_left mupf (x_m q) (match ev with MvInit _ _ => true | MvRelease => false | _ => mup s end) = fold_left mupf (x_m (p_q s)) (mup s)) -> forall b' os,
     mb_step (p_modbus s) ev = Some (b', os) -> m_ends os = false -> Lft (mkApp (p_ctrl s) b' (p_port s) (p_chan s) (p_svc s) q (set_r (p_out s) RModbus (flat_map m_sends os))) b).
  { intros ev q Hi Hq b' os E N. split; cbn [set_r x_u x_m p_out]; try assumption; [|apply flat_plain, m_sends_plain]. unfold mstream, mup. cbn [p_ctrl p_q p_out p_modbus set_r x_c].
    unfold mstream in I1. rewrite fold_left_app in *. rewrite (mb_up _ _ _ _ E N). unfold mup in Hq. rewrite Hq. exact I1. }
  destruct e as [st kept|r0 kept|tok|acc lis|e| |e]; cbn [astep] in H.
  - injection H as <-. split; try assumption. unfold mstream, mup in *. cbn [p_ctrl p_q p_out p_modbus]. rewrite fold_left_app, push_plain by (intros x; destruct st; reflexivity). rewrite <- fold_left_app. auto.
  - destruct (at_r (p_out s) r0) as [|x rest] eqn:Eo; [discriminate H|]. injection H as <-. cbn [granted] in G. rewrite Eo in G.
    assert (G' : kept = true \/ about_modbus x = false) by tauto.
    destruct r0; cbn [at_r] in Eo; (split; [unfold mstream, mup in *; cbn [p_ctrl p_q p_out p_modbus set_r x_c]|cbn [p_out set_r x_u]|cbn [p_out set_r x_m]]); try assumption.
    + rewrite Eo in I3. inversion I3. rewrite fold_left_app, push_plain by assumption. rewrite <- fold_left_app. auto.
    + rewrite Eo in I3. now inversion I3.
    + rewrite Eo in I2. inversion I2. rewrite fold_left_app, push_plain by assumption. rewrite <- fold_left_app. auto.
    + rewrite Eo in I2. now inversion I2.
    + rewrite push_fold by assumption. rewrite <- Eo. auto.
  - unfold with_next in H. destruct (idle s RCtrl) eqn:Hi; [|discriminate H]. cbn [at_r] in H. destruct (x_c (p_q s)) as [|x rest] eqn:Eq; [discriminate H|].
    destruct (k_event tok x) as [k|] eqn:Ek; [|discriminate H]. unfold k_handle in H. destruct (k_step _ _ _) as [[c os]|] eqn:E; [|discriminate H]. injection H as <-.
    exact (K k (set_r (p_q s) RCtrl rest) c os eq_refl eq_refl E).
  - unfold with_next in H. destruct (idle s RUa); [|discriminate H]. destruct (at_r (p_q s) RUa) as [|x rest] eqn:Eq; [discriminate H|]. unfold u_handle, u_next in H.
    destruct x as [| |e|[]|[]| | | | | |[]|[] a|[]]; try destruct (p_port s); try destruct acc, lis; cbn [negb] in H; try discriminate H; injection H as <-; (split; [exact I1|repeat constructor|exact I3]).
  - unfold with_next in H. destruct (idle s RModbus) eqn:Hi; [|discriminate H]. cbn [at_r] in H. destruct (x_m (p_q s)) as [|x rest] eqn:Eq; [discriminate H|].
    destruct (m_event x e) eqn:Ee; [|discriminate H]. unfold m_handle in H. destruct (mb_step _ _) as [[c os]|] eqn:E; [|discriminate H]. destruct (m_ends os) eqn:En; [discriminate H|]. injection H as <-.
    refine (M e (set_r (p_q s) RModbus rest) eq_refl _ c os E En). cbn [set_r x_m]. rewrite ?Eq. cbn [fold_left]. destruct x, e; cbn in Ee; try discriminate Ee; reflexivity.
  - destruct (idle s RCtrl) eqn:Hi; [|discriminate H]. destruct (k_enabled _ _); [|discriminate H]. cbn [andb] in H. unfold k_handle in H. destruct (k_step _ _ _) as [[c os]|] eqn:E; [|discriminate H]. injection H as <-.
    exact (K (KModbus TvTimer) (p_q s) c os eq_refl eq_refl E).
  - destruct (idle s RModbus) eqn:Hi; [|discriminate H]. destruct e; try discriminate H; unfold m_handle in H; (destruct (mb_step _ _) as [[c os]|] eqn:E; [|discriminate H]; destruct (m_ends os) eqn:En; [discriminate H|]; injection H as <-);
      refine (M _ (p_q s) eq_refl _ c os E En); reflexivity.
Qed.
Lemma lft_reach g s tr : areach g s tr -> Lft s (asked g app0 tr false).
Proof.
  induction 1 as [|s tr e s' R IH G H]; [split; [reflexivity|constructor..]|]. rewrite (asked_app g tr app0 false s e (areach_run _ _ _ R)), H. exact (lft_step g s e s' _ IH G H).
Qed.
(** When nothing about start-up or shut-down is in flight the component exists exactly if that was the last thing asked. *)
Lemma left_exact g s tr : areach g s tr -> settled s -> (p_modbus s <> None <-> asked g app0 tr false = true).
Proof.
  intros R S. pose proof (lf_fold _ _ (lft_reach g s tr R)) as F. rewrite plain_fold in F.
  - rewrite <- F. unfold mup. destruct (p_modbus s); split; intros; congruence.
  - apply Forall_forall. intros m Hm. apply plain_other, S. unfold mstream in Hm. unfold in_flight. rewrite !in_app_iff in *. tauto.
Qed.
(** Handling a stop asks for a release, unless the self-test waits for its configuration; then it asks for nothing. *)
Lemma stop_asks g s tok s' rest : x_c (p_q s) = GStop :: rest -> astep g s (ATakeC tok) = ANext s' ->
  exists m, k_modbus (p_ctrl s) = Some m /\ k_modbus (p_ctrl s') = None /\
    forall b, fold_left asks (x_c (p_out s')) b = match m_st m with MConfigure => b | _ => false end.
Proof.
  intros Eq H. cbn [astep] in H. unfold with_next in H. destruct (idle s RCtrl); [|discriminate H]. cbn [at_r] in H. rewrite Eq in H. cbn [k_event] in H.
  unfold k_handle, k_step in H. destruct (k_modbus (p_ctrl s)) as [m|]; [|discriminate H]. destruct (m_step m TvStop) as [[m' o]|] eqn:E; [|discriminate H].
  destruct (k_ua (p_ctrl s)); [|discriminate H]. injection H as <-. exists m. split; [reflexivity|]. split; [reflexivity|]. intros b. cbn [set_r x_c p_out].
  unfold m_step in E. destruct (m_st m) eqn:Em; unfold m_transit, m_exit in E; rewrite ?Em in E; cbn in E; injection E as <- <-; reflexivity.
Qed.
(** While there is no controller it asks for nothing, until a start is taken. *)
Lemma quiet_step g s e s' : k_modbus (p_ctrl s) = None -> (forall tok, e = ATakeC tok -> forall rest, x_c (p_q s) <> GStart :: rest) -> astep g s e = ANext s' ->
  k_modbus (p_ctrl s') = None /\ match e with ATakeC _ | ATick => forall b, fold_left asks (x_c (p_out s')) b = b | _ => True end.
Proof.
  intros N C H. destruct e as [st kept|r0 kept|tok|acc lis|e| |e]; cbn [astep] in H.
  - injection H as <-. now split.
  - destruct (at_r (p_out s) r0) as [|x rest]; [discriminate H|]. injection H as <-. now split.
  - unfold with_next in H. destruct (idle s RCtrl); [|discriminate H]. cbn [at_r] in H. destruct (x_c (p_q s)) as [|x rest] eqn:Eq; [discriminate H|].
    destruct (k_event tok x) as [k|] eqn:Ek; [|discriminate H]. unfold k_handle in H. destruct (k_step _ _ _) as [[c os]|] eqn:E; [|discriminate H]. injection H as <-. cbn [p_ctrl p_out set_r x_c].
    unfold k_step in E. rewrite N in E. destruct x; cbn in Ek; try discriminate Ek; injection Ek as <-; [exfalso; exact (C tok eq_refl rest eq_refl)|discriminate E|..];
      injection E as <- <-; (split; [exact N|]); intros b; try reflexivity. destruct (k_ua (p_ctrl s)); [destruct l|]; reflexivity.
  - unfold with_next in H. destruct (idle s RUa); [|discriminate H]. destruct (at_r (p_q s) RUa) as [|x rest]; [discriminate H|]. unfold u_handle, u_next in H.
    destruct x as [| |e|[]|[]| | | | | |[]|[] a|[]]; try destruct (p_port s); try destruct acc, lis; cbn [negb] in H; try discriminate H; injection H as <-; now split.
  - unfold with_next in H. destruct (idle s RModbus); [|discriminate H]. destruct (at_r (p_q s) RModbus) as [|x rest]; [discriminate H|].
    destruct (m_event x e); [|discriminate H]. unfold m_handle in H. destruct (mb_step _ _) as [[c os]|]; [|discriminate H]. destruct (m_ends os); [discriminate H|]. injection H as <-. now split.
  - destruct (idle s RCtrl && _); [|discriminate H]. unfold k_handle in H. destruct (k_step _ _ _) as [[c os]|] eqn:E; [|discriminate H]. injection H as <-.
    unfold k_step in E. rewrite N in E. injection E as <- <-. now split.
  - destruct (idle s RModbus); [|discriminate H]. destruct e; try discriminate H; unfold m_handle in H; (destruct (mb_step _ _) as [[c os]|]; [|discriminate H]; destruct (m_ends os); [discriminate H|]; injection H as <-; now split).
Qed.

(** Nobody but main sends a start. *)
Definition nostart (l : list amsg) : Prop := ~ In GStart l.
Lemma k_sends_nostart os : nostart (flat_map k_sends os).
Proof. intros H. apply in_flat_map in H as (o & _ & H). destruct o; cbn in H; intuition discriminate. Qed.
Lemma m_sends_nostart os : nostart (flat_map m_sends os).
Proof.
  intros H. apply in_flat_map in H as (o & _ & H). destruct o; cbn in H; try (intuition discriminate).
  - apply in_flat_map in H as (x & _ & H). destruct x; cbn in H; intuition discriminate.
  - apply in_flat_map in H as (x & _ & H). destruct x; cbn in H; intuition discriminate.
Qed.
Lemma flight_in s m : In m (in_flight s) <-> exists r, In m (at_r (p_q s) r) \/ In m (at_r (p_out s) r).
Proof.
  unfold in_flight. rewrite !in_app_iff. split.
  - intros [H|[H|[H|[H|[H|H]]]]]; [exists RModbus|exists RUa|exists RCtrl|exists RModbus|exists RUa|exists RCtrl]; cbn [at_r]; auto.
  - intros [[] [H|H]]; cbn [at_r] in H; tauto.
Qed.
Lemma set_r_in b r l r' m : In m (at_r (set_r b r l) r') -> In m l \/ In m (at_r b r').
Proof. destruct r, r'; cbn [set_r at_r x_m x_u x_c]; tauto. Qed.
Lemma push_in q x kept r m : In m (at_r (push_msg q x kept) r) -> m = x \/ exists r', In m (at_r q r').
Proof. unfold push_msg. destruct kept; [|eauto]. intros H. apply set_r_in in H as [H|H]; [|eauto]. apply in_app_iff in H as [H|[H|[]]]; [eauto|subst; now left]. Qed.
Lemma nostart_make s c b p ch sv q out r l : nostart (in_flight s) -> (forall r' m, In m (at_r q r') -> exists r2, In m (at_r (p_q s) r2)) -> nostart l -> out = set_r (p_out s) r l ->
  nostart (in_flight (mkApp c b p ch sv q out)).
Proof.
  intros N Q L -> H. apply flight_in in H as [r' [H|H]]; cbn [p_q p_out] in H.
  - apply N, flight_in. destruct (Q _ _ H) as [r2 H2]. eauto.
  - apply set_r_in in H as [H|H]; [now apply L|]. apply N, flight_in. eauto.
Qed.
Lemma take_in s r x rest : at_r (p_q s) r = x :: rest -> forall r' m, In m (at_r (set_r (p_q s) r rest) r') -> exists r2, In m (at_r (p_q s) r2).
Proof. intros E r' m H. apply set_r_in in H as [H|H]; [|eauto]. exists r. rewrite E. now right. Qed.
Lemma nostart_step g s e s' : nostart (in_flight s) -> is_cmd e = false -> astep g s e = ANext s' -> nostart (in_flight s').
Proof.
  intros N C H. assert (Q0 : forall r' m, In m (at_r (p_q s) r') -> exists r2, In m (at_r (p_q s) r2)) by eauto.
  destruct e as [st kept|r0 kept|tok|acc lis|e| |e]; cbn [astep] in H.
  - discriminate C.
  - destruct (at_r (p_out s) r0) as [|x rest] eqn:Eo; [discriminate H|]. injection H as <-. intros Hin. apply flight_in in Hin as [r' [Hin|Hin]]; cbn [p_q p_out] in Hin.
    + apply push_in in Hin as [X|[r2 Hin]]; apply N, flight_in; [exists r0; right; rewrite Eo; left; now symmetry|eauto].
    + apply set_r_in in Hin as [Hin|Hin]; apply N, flight_in; [exists r0; right; rewrite Eo; now right|eauto].
  - unfold with_next in H. destruct (idle s RCtrl); [|discriminate H]. destruct (at_r (p_q s) RCtrl) as [|x rest] eqn:Eq; [discriminate H|].
    destruct (k_event tok x); [|discriminate H]. unfold k_handle in H. destruct (k_step _ _ _) as [[c os]|]; [|discriminate H]. injection H as <-.
    eapply (nostart_make s _ _ _ _ _ _ _ RCtrl); [exact N|exact (take_in _ _ _ _ Eq)| |reflexivity]. apply k_sends_nostart.
  - unfold with_next in H. destruct (idle s RUa); [|discriminate H]. destruct (at_r (p_q s) RUa) as [|x rest] eqn:Eq; [discriminate H|]. unfold u_handle, u_next in H.
    destruct x as [| |e|[]|[]| | | | | |[]|[] a|[]]; try destruct (p_port s); try destruct acc, lis; cbn [negb] in H; try discriminate H; injection H as <-;
      (eapply (nostart_make s _ _ _ _ _ _ _ RUa); [exact N|exact (take_in _ _ _ _ Eq)| |reflexivity]; intros X; cbn in X; intuition discriminate).
  - unfold with_next in H. destruct (idle s RModbus); [|discriminate H]. destruct (at_r (p_q s) RModbus) as [|x rest] eqn:Eq; [discriminate H|].
    destruct (m_event x e); [|discriminate H]. unfold m_handle in H. destruct (mb_step _ _) as [[c os]|]; [|discriminate H]. destruct (m_ends os); [discriminate H|]. injection H as <-.
    eapply (nostart_make s _ _ _ _ _ _ _ RModbus); [exact N|exact (take_in _ _ _ _ Eq)| |reflexivity]. apply m_sends_nostart.
  - destruct (idle s RCtrl && _); [|discriminate H]. unfold k_handle in H. destruct (k_step _ _ _) as [[c os]|]; [|discriminate H]. injection H as <-.
    eapply (nostart_make s _ _ _ _ _ _ _ RCtrl); [exact N|exact Q0| |reflexivity]. apply k_sends_nostart.
  - destruct (idle s RModbus); [|discriminate H]. destruct e; try discriminate H; unfold m_handle in H; (destruct (mb_step _ _) as [[c os]|]; [|discriminate H]; destruct (m_ends os); [discriminate H|]; injection H as <-;
      eapply (nostart_make s _ _ _ _ _ _ _ RModbus); [exact N|exact Q0| |reflexivity]; apply m_sends_nostart).
Qed.

(** What is asked after the last command, a stop: nothing. *)
Lemma left_after g s1 tr1 tok rest m : areach g s1 tr1 -> x_c (p_q s1) = GStop :: rest -> k_modbus (p_ctrl s1) = Some m -> nostart (in_flight s1) ->
  forall tr2 s, (forall e, In e tr2 -> is_cmd e = false) -> areach g s (tr1 ++ ATakeC tok :: tr2) ->
  k_modbus (p_ctrl s) = None /\ nostart (in_flight s) /\
  asked g app0 (tr1 ++ ATakeC tok :: tr2) false = match m_st m with MConfigure => asked g app0 tr1 false | _ => false end.
Proof.
  assert (Inv : forall s tr e, areach g s (tr ++ [e]) -> exists s0, areach g s0 tr /\ astep g s0 e = ANext s).
  { intros s tr e R. remember (tr ++ [e]) as t eqn:Et. destruct R as [|s0 tr0 e0 s' R0 G A]; [destruct tr; discriminate Et|]. apply app_inj_tail in Et as [-> ->]. eauto. }
  intros R1 Eq Em N. induction tr2 as [|e tr2 IH] using rev_ind; intros s C R.
  - apply Inv in R as (s0 & R0 & A).
    pose proof (areach_run _ _ _ R0) as X. rewrite (areach_run _ _ _ R1) in X. injection X as <-.
    destruct (stop_asks g s1 tok s rest Eq A) as (m0 & Em0 & N0 & F). rewrite Em in Em0. injection Em0 as <-. split; [exact N0|].
    split; [exact (nostart_step g s1 (ATakeC tok) s N eq_refl A)|]. rewrite (asked_app g tr1 app0 false s1 _ (areach_run _ _ _ R1)), A. exact (F _).
  - replace (tr1 ++ ATakeC tok :: tr2 ++ [e]) with ((tr1 ++ ATakeC tok :: tr2) ++ [e]) in * by (now rewrite <- app_assoc).
    apply Inv in R as (s0 & R0 & A).
    destruct (IH s0 ltac:(intros; apply C, in_app_iff; now left) R0) as (N0 & NS & F). rewrite (asked_app g _ app0 false s0 e (areach_run _ _ _ R0)), A.
    destruct (quiet_step g s0 e s N0) as [N1 F1]; [|exact A|].
    + intros t -> r X. apply NS, flight_in. exists RCtrl. left. cbn [at_r]. rewrite X. now left.
    + split; [exact N1|]. split; [apply (nostart_step g s0 e s NS); [apply C, in_app_iff; right; now left|exact A]|].
      rewrite <- F. destruct e; try reflexivity; apply F1.
Qed.
