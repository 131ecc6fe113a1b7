(** The facts behind the theorems of Props_ModbusComp. *)
From Verif Require Import Base QueueModel PoolModel MsgStorageModel ModbusCodecModel ModbusCodecSpec ModbusClientModel ModbusStoreProofs ModbusClientSpec ModbusClientProofs ModbusClientRuns ModbusClientFacts ModbusServerModel ModbusServerSpec ModbusCompModel ModbusCompSpec ModbusCompProofs ModbusCompRuns.
Local Open Scope Z_scope.

Lemma mreach_some c tr z : mreach c tr -> sizes tr = Some z -> exists b, c = Some b /\ dims b z /\ HI b (outs_of_run tr) /\ b_bad b = unbound tr.
Proof. intros R E. apply mreach_inv in R. unfold MI in R. rewrite E in R. destruct c as [b|]; [|contradiction]. destruct R as [[B D] H]. eauto. Qed.
Lemma mreach_none c tr : mreach c tr -> sizes tr = None -> c = None.
Proof. intros R E. apply mreach_inv in R. unfold MI in R. rewrite E in R. destruct c as [b|]; [contradiction|reflexivity]. Qed.

Lemma client_history_rel c tr id t : mreach c tr -> 0 <= id -> client_history id tr = Some t ->
  exists m0 b0 k, length b0 = 512%nat /\ bytes_ok b0 /\ Forall ev_ok (map fst t) /\ boot m0 b0 (map fst t) = Some (k, t).
Proof.
  intros R Hid E. apply mreach_inv in R. unfold MI in R. unfold client_history in E. fold (chist id (outs_of_run tr)) in E.
  destruct c as [b|], (sizes tr); try contradiction.
  - destruct R as [_ R]. destruct (R id Hid) as [H _]. rewrite E in H. cbn [cli_rel] in H.
    destruct (nth_slot (b_clients b) id) as [k|]; [|contradiction]. destruct H as (m0 & b0 & H). exists m0, b0, k. exact H.
  - destruct (R id) as [H _]. congruence.
Qed.
Lemma server_history_rel c tr id t : mreach c tr -> 0 <= id -> server_history id tr = Some t -> exists b0 q0 v, reach b0 q0 v t.
Proof.
  intros R Hid E. apply mreach_inv in R. unfold MI in R. unfold server_history in E. fold (shist id (outs_of_run tr)) in E.
  destruct c as [b|], (sizes tr); try contradiction.
  - destruct R as [_ R]. destruct (R id Hid) as [_ H]. rewrite E in H. cbn [srv_rel] in H.
    destruct (nth_slot (b_servers b) id) as [k|]; [|contradiction]. destruct H as (m0 & b0 & H). exists m0, b0, k. exact H.
  - destruct (R id) as [_ H]. congruence.
Qed.

(** * Which requests reach a client *)
Definition addressed (o : mout) : Prop := match o with MCli id (EReq it) _ => i_client it = id | _ => True end.
Definition unasked (o : mout) : Prop := match o with MCli id (EReq it) _ => False | _ => True end.
Lemma effect_unasked z g : Forall unasked (config_effect z g) /\ Forall unasked (config_failure g).
Proof. unfold config_effect, config_failure. split; repeat match goal with |- context [if ?x then _ else _] => destruct x end; repeat constructor. Qed.
Lemma effects_unasked z l : Forall unasked (config_effects z l).
Proof.
  induction l as [|g r IH]; cbn [config_effects]; [constructor|]. destruct (works z g); [apply Forall_app; split; [apply (effect_unasked z)|exact IH]|apply (effect_unasked z)].
Qed.
Lemma out_unasked z l : Forall unasked (config_out z l).
Proof. unfold config_out. apply Forall_app. split; [apply effects_unasked|]. destruct (forallb _ _); repeat constructor. Qed.
Lemma weaken_addressed o : unasked o -> addressed o.
Proof. destruct o as [| | | | | |id [] os| | |]; cbn; tauto. Qed.
Lemma adu_addressed its : forall b b' os, adu_loop b its = Some (b', os) -> Forall addressed os.
Proof.
  induction its as [|it r IH]; intros b b' os E; cbn [adu_loop] in E; [injection E as <- <-; constructor|].
  destruct (nth_slot (b_clients b) (i_client it)) as [k|].
  - destruct (ac_step k (EReq it)) as [[k' o]|]; [|discriminate]. destruct (adu_loop _ r) as [[b2 o2]|] eqn:E2; [|discriminate].
    injection E as <- <-. constructor; [reflexivity|]. eapply IH; eauto.
  - destruct (adu_loop b r) as [[b2 o2]|] eqn:E2; [|discriminate]. injection E as <- <-. constructor; [exact I|]. eapply IH; eauto.
Qed.
Definition is_batch (e : mev) : bool := match e with MvAdu _ => true | _ => false end.
Lemma step_unasked c tr e c' os : mreach c tr -> mev_ok e -> mb_step c e = Some (c', os) -> alive os = true -> is_batch e = false -> Forall unasked os.
Proof.
  intros R He Es A Hb. destruct e as [ns nc| |l|m|s p sok|id x|id x]; try discriminate; cbn [mb_step] in Es.
  - destruct (doomed c); injection Es as _ <-; repeat constructor.
  - destruct (doomed c); injection Es as _ <-; repeat constructor.
  - destruct c as [b|]; [|injection Es as _ <-; constructor]. apply mreach_inv in R. unfold MI in R.
    destruct (sizes tr) as [z|]; [|contradiction]. destruct R as [[_ D] H]. destruct (config b l) as [[b' o]|] eqn:E; [|discriminate]. injection Es as <- <-.
    destruct (config_alive l b z _ b' o D He H E A) as (-> & _). apply out_unasked.
  - destruct c as [b|]; [|injection Es as _ <-; constructor]. unfold srv_event in Es. destruct (nth_slot (b_servers b) s) as [v|]; [|injection Es as _ <-; constructor].
    destruct (srv_step v (VReply p sok)) as [[v' o]|]; [|discriminate]. injection Es as _ <-. repeat constructor.
  - destruct c as [b|]; [|injection Es as _ <-; constructor]. unfold cli_event in Es. destruct (nth_slot (b_clients b) id) as [v|]; [|injection Es as _ <-; constructor].
    destruct (ac_step v x) as [[v' o]|]; [|discriminate]. injection Es as _ <-. constructor; [|constructor]. destruct He as (_ & He & _).
    destruct x; try discriminate; exact I.
  - destruct c as [b|]; [|injection Es as _ <-; constructor]. unfold srv_event in Es. destruct (nth_slot (b_servers b) id) as [v|]; [|injection Es as _ <-; constructor].
    destruct (srv_step v x) as [[v' o]|]; [|discriminate]. injection Es as _ <-. repeat constructor.
Qed.
Lemma step_addressed c tr e c' os : mreach c tr -> mev_ok e -> mb_step c e = Some (c', os) -> alive os = true -> Forall addressed os.
Proof.
  intros R He Es A. destruct (is_batch e) eqn:Hb.
  - destruct e; try discriminate. cbn [mb_step] in Es. destruct c as [b|]; [|injection Es as _ <-; constructor].
    destruct (read_batch m) as [its|]; [|discriminate]. destruct (adu_loop b its) as [[b' o]|] eqn:E; [|discriminate]. injection Es as _ <-.
    eapply adu_addressed; eauto.
  - eapply Forall_impl; [exact weaken_addressed|]. eapply step_unasked; eauto.
Qed.
Lemma run_addressed c tr : mreach c tr -> Forall addressed (outs_of_run tr).
Proof.
  induction 1; [constructor|]. rewrite outs_snoc. apply Forall_app. split; [assumption|]. eapply step_addressed; eauto.
Qed.

Lemma submitted_snoc t e os : submitted (t ++ [(e, os)]) = submitted t ++ match e with EReq it => [it] | _ => [] end.
Proof. unfold submitted. rewrite flat_map_app. cbn [flat_map fst]. now rewrite app_nil_r. Qed.
Definition subs_are (P : item -> Prop) (h : option trace) : Prop := match h with Some t => Forall P (submitted t) | None => True end.
Lemma addressed_subs id hs : Forall addressed hs -> forall h, subs_are (fun it => i_client it = id) h ->
  subs_are (fun it => i_client it = id) (fold_left (client_hist id) hs h).
Proof.
  induction 1 as [|o hs Ho _ IH]; intros h Hh; [exact Hh|]. cbn [fold_left]. apply IH.
  destruct o as [| | | |j| |j e os| | |]; cbn [client_hist]; try exact Hh; try exact I.
  - destruct (j =? id); [constructor|exact Hh].
  - destruct (Z.eqb_spec j id) as [->|]; [|exact Hh]. destruct h as [t|]; [|exact I]. cbn [option_map subs_are] in *. rewrite submitted_snoc.
    apply Forall_app. split; [exact Hh|]. destruct e; constructor; [exact Ho|constructor].
Qed.
Lemma unasked_subs id hs : Forall unasked hs -> forall h, subs_are (fun it => False) h ->
  subs_are (fun it => False) (fold_left (client_hist id) hs h).
Proof.
  induction 1 as [|o hs Ho _ IH]; intros h Hh; [exact Hh|]. cbn [fold_left]. apply IH.
  destruct o as [| | | |j| |j e os| | |]; cbn [client_hist]; try exact Hh; try exact I.
  - destruct (j =? id); [constructor|exact Hh].
  - destruct (Z.eqb_spec j id) as [->|]; [|exact Hh]. destruct h as [t|]; [|exact I]. cbn [option_map subs_are] in *. rewrite submitted_snoc.
    apply Forall_app. split; [exact Hh|]. destruct e; constructor; destruct Ho.
Qed.

(** Responses name submitted requests. *)
Lemma names_in sub tr : names_submitted sub tr -> incl (flat_map (fun x => rsps (snd x)) tr) (map ids (sub ++ submitted tr)).
Proof.
  revert sub. induction tr as [|[e os] tr IH]; intros sub H; cbn [flat_map]; [intros x []|]. destruct H as [H1 H2]. apply IH in H2.
  intros x Hx. apply in_app_or in Hx as [Hx|Hx].
  - apply H1 in Hx. apply in_map_iff in Hx as (it & <- & Hx). apply in_map. cbn [snd fst] in *. unfold submitted. cbn [flat_map fst].
    rewrite app_assoc. apply in_or_app. now left.
  - apply H2 in Hx. rewrite <- app_assoc in Hx. exact Hx.
Qed.
Lemma client_responses c tr id t : mreach c tr -> 0 <= id -> client_history id tr = Some t ->
  Forall (fun it => i_client it = id) (submitted t) /\ incl (flat_map (fun x => rsps (snd x)) t) (map ids (submitted t)).
Proof.
  intros R Hid E. split.
  - pose proof (addressed_subs id _ (run_addressed c tr R) None I) as H. unfold client_history in E. rewrite E in H. exact H.
  - destruct (client_history_rel c tr id t R Hid E) as (m0 & b0 & k & Hl & Hb & Hev & Eb).
    exact (names_in [] t (boot_names m0 b0 _ k t Hl Hb Hev Eb)).
Qed.

(** * Nothing pending survives a release *)
Definition no_batch (tr : mtrace) : bool := forallb (fun x => negb (is_batch (fst x))) tr.
Definition quiet (o : mout) : Prop := mrsps o = [].

Definition all_sub_none (hs : list mout) : Prop := forall id, subs_are (fun it => False) (chist id hs).

(** The responses among the effects of one step of a component none of whose clients was asked anything. *)
Lemma quiet_cli b hs id k e k' os : HI b hs -> 0 <= id -> nth_slot (b_clients b) id = Some k -> enabled k e = true -> ev_ok e ->
  ac_step k e = Some (k', os) -> unasked (MCli id e os) -> all_sub_none hs -> rsps os = [].
Proof.
  intros H Hid Hs En He Es Hu Hn. pose proof (hi_cli b hs id k e k' os H Hid Hs En He Es) as H'.
  destruct (H' id Hid) as [Hc _]. rewrite chist_snoc in Hc. cbn [client_hist] in Hc. rewrite Z.eqb_refl in Hc.
  specialize (Hn id). destruct (chist id hs) as [t|]; [|cbn [option_map cli_rel] in Hc].
  - cbn [option_map cli_rel] in Hc. destruct (nth_slot (b_clients (set_client b id k')) id) as [kk|]; [|contradiction]. destruct Hc as (m0 & b0 & Hl & Hb & Hev & Eb).
    pose proof (names_in [] _ (boot_names m0 b0 _ kk _ Hl Hb Hev Eb)) as N. cbn [app] in N. rewrite submitted_snoc in N.
    cbn [subs_are] in Hn. destruct (submitted t) as [|x l]; [|inversion Hn as [|? ? F]; destruct F].
    assert (N' : incl (flat_map (fun x => rsps (snd x)) (t ++ [(e, os)])) []) by (destruct e; [exact N|destruct Hu|exact N..]).
    destruct (rsps os) as [|y l] eqn:Er; [reflexivity|]. exfalso. apply (N' y). rewrite flat_map_app. apply in_or_app. right.
    cbn [flat_map snd]. rewrite Er. now left.
  - unfold set_client in Hc. cbn [b_clients] in Hc. rewrite slot_upd in Hc by (auto; eapply slot_some; eauto). rewrite Z.eqb_refl in Hc. contradiction.
Qed.
Lemma effect_quiet z l : Forall quiet (config_out z l).
Proof.
  assert (A : forall g, Forall quiet (config_effect z g) /\ Forall quiet (config_failure g)).
  { intros g. unfold config_effect, config_failure. split; repeat match goal with |- context [if ?x then _ else _] => destruct x end; repeat constructor. }
  unfold config_out. apply Forall_app. split.
  - induction l as [|g r IH]; cbn [config_effects]; [constructor|]. destruct (works z g); [apply Forall_app; split; [apply A|exact IH]|apply A].
  - destruct (forallb _ _); repeat constructor.
Qed.
Lemma step_quiet c tr e c' os : mreach c tr -> mev_ok e -> mb_enabled c e = true -> mb_step c e = Some (c', os) -> alive os = true -> is_batch e = false ->
  all_sub_none (outs_of_run tr) -> Forall quiet os.
Proof.
  intros R He En Es A Hb Hn. pose proof (step_unasked c tr e c' os R He Es A Hb) as U. apply mreach_inv in R. unfold MI in R.
  destruct e as [ns nc| |l|m|s p sok|id x|id x]; try discriminate; cbn [mb_step] in Es.
  - destruct (doomed c); injection Es as _ <-; repeat constructor.
  - destruct (doomed c); injection Es as _ <-; repeat constructor.
  - destruct c as [b|]; [|injection Es as _ <-; constructor].
    destruct (sizes tr) as [z|]; [|contradiction]. destruct R as [[_ D] H]. destruct (config b l) as [[b' o]|] eqn:E; [|discriminate]. injection Es as <- <-.
    destruct (config_alive l b z _ b' o D He H E A) as (-> & _). apply effect_quiet.
  - destruct c as [b|]; [|injection Es as _ <-; constructor]. unfold srv_event in Es. destruct (nth_slot (b_servers b) s) as [v|]; [|injection Es as _ <-; constructor].
    destruct (srv_step v (VReply p sok)) as [[v' o]|]; [|discriminate]. injection Es as _ <-. repeat constructor.
  - destruct c as [b|]; [|discriminate]. destruct (sizes tr) as [z|]; [|contradiction]. destruct R as [D H]. unfold cli_event in Es. cbn [mb_enabled] in En.
    destruct (nth_slot (b_clients b) id) as [v|] eqn:Ev; [|discriminate].
    destruct (ac_step v x) as [[v' o]|] eqn:Eo; [|discriminate]. injection Es as _ <-. constructor; [|constructor]. inversion U; subst.
    destruct He as (Hs & _ & Hp). unfold is_u32 in Hs. unfold quiet. cbn [mrsps].
    exact (quiet_cli b _ id v x v' o H (proj1 Hs) Ev En Hp Eo H2 Hn).
  - destruct c as [b|]; [|injection Es as _ <-; constructor]. unfold srv_event in Es. destruct (nth_slot (b_servers b) id) as [v|]; [|injection Es as _ <-; constructor].
    destruct (srv_step v x) as [[v' o]|]; [|discriminate]. injection Es as _ <-. repeat constructor.
Qed.
Lemma mreach_snoc_inv c tr e os : mreach c (tr ++ [(e, os)]) -> exists c0, mreach c0 tr /\ mev_ok e /\ mb_enabled c0 e = true /\ mb_step c0 e = Some (c, os) /\ alive os = true.
Proof.
  intros R. remember (tr ++ [(e, os)]) as t eqn:Q. destruct R as [|c0 tr0 e0 c' os0 R0 He En Es A].
  - destruct tr; discriminate.
  - apply app_inj_tail in Q as [-> Q]. injection Q as -> ->. eauto 10.
Qed.
Lemma quiet_after tr2 : forall c2 tr1, all_sub_none (outs_of_run tr1) -> mreach c2 (tr1 ++ tr2) -> no_batch tr2 = true ->
  responses tr2 = [] /\ all_sub_none (outs_of_run (tr1 ++ tr2)).
Proof.
  induction tr2 as [|[e os] tr2 IH] using rev_ind; intros c2 tr1 Hn R Hb.
  - rewrite app_nil_r. auto.
  - rewrite app_assoc in R. apply mreach_snoc_inv in R as (c0 & R & He & En & Es & A).
    unfold no_batch in Hb. rewrite forallb_app in Hb. apply andb_prop in Hb as [Hb1 Hb2]. cbn [forallb fst] in Hb2.
    destruct (IH c0 tr1 Hn R Hb1) as [I1 I2]. assert (Hq : is_batch e = false) by (destruct (is_batch e); [discriminate|reflexivity]).
    pose proof (step_quiet c0 _ e c2 os R He En Es A Hq I2) as Q. pose proof (step_unasked c0 _ e c2 os R He Es A Hq) as U. split.
    + unfold responses in *. rewrite outs_snoc, flat_map_app, I1. cbn [app]. clear - Q. induction Q as [|o l Ho _ IH]; [reflexivity|]. cbn [flat_map]. unfold quiet in Ho. now rewrite Ho, IH.
    + rewrite app_assoc, outs_snoc. intros id. unfold chist. rewrite fold_left_app. apply unasked_subs; [exact U|apply I2].
Qed.
Lemma after_reset tr e os : os = [MInitRsp] \/ os = [MReleaseRsp] -> all_sub_none (outs_of_run (tr ++ [(e, os)])).
Proof. intros H id. rewrite outs_snoc. destruct H as [-> | ->]; rewrite chist_snoc; exact I. Qed.

(** * Configuration *)
Lemma effects_all z l : forallb (works z) l = true -> config_effects z l = flat_map (config_effect z) l.
Proof. induction l as [|g r IH]; [reflexivity|]. cbn [forallb config_effects flat_map]. intros H. apply andb_prop in H as [H1 H2]. now rewrite H1, IH. Qed.
Lemma effects_fail z l1 g l2 : forallb (works z) l1 = true -> works z g = false ->
  config_effects z (l1 ++ g :: l2) = flat_map (config_effect z) l1 ++ config_failure g.
Proof.
  intros H Hg. induction l1 as [|x r IH]; cbn [app config_effects flat_map]; [now rewrite Hg|].
  cbn [forallb] in H. apply andb_prop in H as [H1 H2]. rewrite H1, IH by exact H2. now rewrite app_assoc.
Qed.
Lemma effect_no_reply z g items : ~ In (MConfigRsp items) (config_effect z g) /\ ~ In (MConfigRsp items) (config_failure g).
Proof.
  unfold config_effect, config_failure. split; repeat match goal with |- context [if ?x then _ else _] => destruct x end; cbn [In]; intuition discriminate.
Qed.
Lemma effects_no_reply z l items : ~ In (MConfigRsp items) (flat_map (config_effect z) l).
Proof. intros H. apply in_flat_map in H as (g & _ & H). now apply effect_no_reply in H. Qed.

Lemma hits_none z bad l : Forall (fun g => replaces z bad g = false) l -> hits z bad l = false.
Proof. induction 1 as [|g r Hg _ IH]; [reflexivity|]. cbn [hits]. rewrite Hg, IH. apply andb_false_r. Qed.
Lemma unbound_all z l : forall bad, forallb (works z) l = true -> unbound_items z bad l = bad.
Proof.
  induction l as [|g r IH]; intros bad H; [reflexivity|]. cbn [forallb] in H. apply andb_prop in H as [H1 H2]. rewrite unbound_cons, H1, unbound_works by exact H1. now apply IH.
Qed.
Lemma doomed_iff c tr : mreach c tr -> (doomed c = false <-> unbound tr = []).
Proof.
  intros R. destruct (sizes tr) as [z|] eqn:S.
  - destruct (mreach_some c tr z R S) as (b & -> & _ & _ & B). cbn [doomed]. rewrite <- B. destruct (b_bad b); cbn; split; congruence.
  - rewrite (mreach_none c tr R S). cbn [doomed]. split; [|reflexivity]. intros _. clear R c. revert S. unfold sizes, unbound.
    induction tr as [|[e os] tr IH] using rev_ind; [reflexivity|]. rewrite sizes_snoc, unbound_snoc. destruct e; intros S; try discriminate; try reflexivity; auto.
    rewrite S. auto.
Qed.
Lemma config_loop_quiet l : forall b b' os x, config_loop b l = Some (b', os, x) -> forall items, ~ In (MConfigRsp items) os.
Proof.
  assert (T : forall g b b' os x, config_item b g = Some (b', os, x) -> forall items, ~ In (MConfigRsp items) os).
  { intros g b b' os x E items Hi. unfold config_item in E.
    destruct (g_mode g =? 0).
    - destruct (_ <=? _); [injection E as <- <- <-; destruct Hi|]. destruct (is_bad b (g_id g)); [injection E as <- <- <-; destruct Hi as [Hi|[]]; discriminate|].
      destruct (srv_new maxNumSession (g_mem g) (g_adu g)); [|discriminate]. destruct (_ && _); injection E as <- <- <-; cbn [In] in Hi; intuition discriminate.
    - destruct (g_mode g =? 1); [|injection E as <- <- <-; destruct Hi]. destruct (_ <=? _); [injection E as <- <- <-; destruct Hi|].
      destruct (negb (g_pools g)); [injection E as <- <- <-; cbn [In] in Hi; intuition discriminate|].
      destruct (match as_new (g_store g) with Some st => _ | None => _ end) as [[k o]|]; [|discriminate]. injection E as <- <- <-. destruct (threw o); cbn [In app] in Hi; intuition discriminate. }
  induction l as [|g r IH]; intros b b' os x E items Hi; cbn [config_loop] in E; [injection E as <- <- <-; destruct Hi|].
  destruct (config_item b g) as [[[b1 o1] [|]]|] eqn:E1; try discriminate.
  - injection E as <- <- <-. exact (T _ _ _ _ _ E1 items Hi).
  - destruct (config_loop b1 r) as [[[b2 o2] y]|] eqn:E2; [|discriminate]. injection E as <- <- <-. apply in_app_or in Hi as [Hi|Hi]; [exact (T _ _ _ _ _ E1 items Hi)|exact (IH _ _ _ _ E2 items Hi)].
Qed.

Lemma config_out_alive z l : alive (config_out z l) = true.
Proof.
  assert (T1 : forall g, alive (config_effect z g) = true /\ alive (config_failure g) = true).
  { intros g. unfold config_effect, config_failure. split; repeat match goal with |- context [if ?x then _ else _] => destruct x end; reflexivity. }
  assert (T : alive (config_effects z l) = true).
  { induction l as [|g r IH]; [reflexivity|]. cbn [config_effects]. destruct (works z g); [|apply T1]. unfold alive in *. rewrite forallb_app, IH.
    now rewrite (proj1 (T1 g)). }
  unfold config_out, alive in *. rewrite forallb_app, T. destruct (forallb (works z) l); reflexivity.
Qed.
Lemma adu_alive its : forall b b' os, adu_loop b its = Some (b', os) -> alive os = true.
Proof.
  induction its as [|it r IH]; intros b b' os E; cbn [adu_loop] in E; [injection E as <- <-; reflexivity|].
  destruct (nth_slot (b_clients b) (i_client it)) as [k|].
  - destruct (ac_step k (EReq it)) as [[k' o]|]; [|discriminate]. destruct (adu_loop _ r) as [[b2 o2]|] eqn:E2; [|discriminate]. injection E as <- <-. exact (IH _ _ _ E2).
  - destruct (adu_loop b r) as [[b2 o2]|] eqn:E2; [|discriminate]. injection E as <- <-. exact (IH _ _ _ E2).
Qed.

(** A configured client stays known through a configuration. *)
Definition no_reset (o : mout) : Prop := match o with MInitRsp | MReleaseRsp => False | _ => True end.
Lemma known_kept id hs : Forall no_reset hs -> forall h, h <> None -> fold_left (client_hist id) hs h <> None.
Proof.
  induction 1 as [|o hs Ho _ IH]; intros h Hh; [exact Hh|]. cbn [fold_left]. apply IH.
  destruct o; cbn [client_hist no_reset] in *; try contradiction; try exact Hh.
  - destruct (_ =? id); congruence.
  - destruct (_ =? id); [|exact Hh]. destruct h; [discriminate|congruence].
Qed.
Lemma known_from id hs1 hs2 h : Forall no_reset hs2 -> fold_left (client_hist id) (hs1 ++ MNewClient id :: hs2) h <> None.
Proof. intros H. rewrite fold_left_app. cbn [fold_left client_hist]. rewrite Z.eqb_refl. apply known_kept; [exact H|discriminate]. Qed.
Lemma sknown_kept id hs : Forall no_reset hs -> forall h, h <> None -> fold_left (server_hist id) hs h <> None.
Proof.
  induction 1 as [|o hs Ho _ IH]; intros h Hh; [exact Hh|]. cbn [fold_left]. apply IH.
  destruct o; cbn [server_hist no_reset] in *; try contradiction; try exact Hh.
  - destruct (_ =? id); congruence.
  - destruct (_ =? id); [|exact Hh]. destruct h; [discriminate|congruence].
Qed.
Lemma sknown_from id hs1 hs2 h : Forall no_reset hs2 -> fold_left (server_hist id) (hs1 ++ MNewServer id :: hs2) h <> None.
Proof. intros H. rewrite fold_left_app. cbn [fold_left server_hist]. rewrite Z.eqb_refl. apply sknown_kept; [exact H|discriminate]. Qed.
Lemma effects_no_reset z l : Forall no_reset (flat_map (config_effect z) l).
Proof.
  induction l as [|g r IH]; [constructor|]. cbn [flat_map]. apply Forall_app. split; [|exact IH].
  unfold config_effect. repeat match goal with |- context [if ?x then _ else _] => destruct x end; repeat constructor.
Qed.

(** * Octets of a written batch *)
Lemma bytes_firstn n m : bytes_ok m -> bytes_ok (firstn n m).
Proof. intros H. rewrite <- (firstn_skipn n m) in H. now apply Forall_app in H as [H _]. Qed.
Lemma bytes_skipn n m : bytes_ok m -> bytes_ok (skipn n m).
Proof. intros H. rewrite <- (firstn_skipn n m) in H. now apply Forall_app in H as [_ H]. Qed.
Lemma put_bytes m o l m' : bytes_ok m -> bytes_ok l -> put m o l = Some m' -> bytes_ok m'.
Proof.
  intros Hm Hl E. apply put_spec in E as [_ ->]. apply Forall_app. split; [now apply bytes_firstn|]. apply Forall_app. split; [exact Hl|now apply bytes_skipn].
Qed.
Lemma put_item_bytes m o it m' : bytes_ok m -> item_ok it -> put_item m o it = Some m' -> bytes_ok m'.
Proof.
  intros Hm (_ & Hr & _) E. unfold put_item in E.
  do 7 match type of E with obind (put ?a ?b ?c) _ = _ =>
    let m1 := fresh "m" in let P := fresh "P" in destruct (put a b c) as [m1|] eqn:P; [|discriminate E]; cbn [obind] in E;
    apply put_bytes in P; [|assumption|apply le_bytes_ok] end.
  assert (D : bytes_ok (q_data (i_req it))) by apply Hr.
  destruct (q_data (i_req it)) as [|x d] eqn:Q; [injection E as <-; assumption|]. eapply put_bytes; [|exact D|exact E]. assumption.
Qed.
Lemma put_items_bytes its : forall m i m', bytes_ok m -> Forall item_ok its -> put_items m i its = Some m' -> bytes_ok m'.
Proof.
  induction its as [|it r IH]; intros m i m' Hm Hok E; cbn [put_items] in E; [injection E as <-; exact Hm|]. inversion Hok; subst.
  destruct (item_off m i) as [o|]; [|discriminate]. cbn [obind] in E. destruct (put_item m o it) as [m1|] eqn:P; [|discriminate]. cbn [obind] in E.
  apply (IH m1 (S i) m'); [eapply put_item_bytes; eauto|assumption|exact E].
Qed.
Lemma write_batch_bytes m its m' : bytes_ok m -> Forall item_ok its -> write_batch m its = Some m' -> bytes_ok m'.
Proof.
  intros Hm Hok E. unfold write_batch in E. destruct (put m 8 _) as [m1|] eqn:P; [|discriminate]. cbn [obind] in E.
  eapply put_items_bytes; [|exact Hok|exact E]. eapply put_bytes; [exact Hm|apply le_bytes_ok|exact P].
Qed.

(** * Executing histories *)
Fixpoint mruns {S E O} (step : S -> E -> option (S * list O)) (en : S -> E -> bool) (c : S) (es : list E) : option (S * list (list O)) :=
  match es with
  | [] => Some (c, [])
  | e :: r => if en c e then
                match step c e with
                | Some (c1, os) => match mruns step en c1 r with Some (c2, oss) => Some (c2, os :: oss) | None => None end
                | None => None
                end
              else None
  end.
Lemma mruns_reach es : forall c tr c' oss, mreach c tr -> Forall mev_ok es -> mruns mb_step mb_enabled c es = Some (c', oss) -> forallb alive oss = true ->
  mreach c' (tr ++ combine es oss).
Proof.
  induction es as [|e es IH]; intros c tr c' oss HR Hok H A; cbn [mruns] in H.
  - apply some2 in H as (<- & <-). now rewrite app_nil_r.
  - destruct (mb_enabled c e) eqn:En; [|discriminate].
    destruct (mb_step c e) as [[v1 os]|] eqn:Es; [|discriminate]. destruct (mruns mb_step mb_enabled v1 es) as [[v2 tr2]|] eqn:Er; [|discriminate].
    apply some2 in H as (<- & <-). inversion Hok; subst. cbn [combine]. cbn [forallb] in A. apply andb_prop in A as [A1 A2].
    replace (tr ++ (e, os) :: combine es tr2) with ((tr ++ [(e, os)]) ++ combine es tr2) by (rewrite <- app_assoc; reflexivity).
    eapply IH; eauto. econstructor; eauto.
Qed.
Definition mouts (es : list mev) : option (list (list mout)) := option_map snd (mruns mb_step mb_enabled None es).
Lemma mouts_reach es oss : Forall mev_ok es -> mouts es = Some oss -> forallb alive oss = true -> exists c, mreach c (combine es oss).
Proof.
  intros Hok H A. unfold mouts in H. destruct (mruns mb_step mb_enabled None es) as [[c os]|] eqn:E; [|discriminate]. injection H as ->.
  exists c. exact (mruns_reach es None [] c oss mr_new Hok E A).
Qed.
