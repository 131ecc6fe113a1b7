From Verif Require Import Base QueueModel QueueProofs MsgStorageModel MsgStorageSpec MsgStorageProofs
  ReactorModel ReactorSpec.
Local Open Scope Z_scope.

Section P.
Context {H : Type}.
Variable mid : list Z -> Z.
Notation rstep := (@rstep H mid).
Notation rrun := (@rrun H mid).
Variable slack : Z.
Hypothesis Hslack : 0 <= slack <= 15.

Lemma rcfg : st_cfg max_msg 64 slack.
Proof. unfold st_cfg, max_msg; lia. Qed.

Lemma accepted_app (a b : list (ev H)) : accepted (a ++ b) = accepted a ++ accepted b.
Proof. induction a as [|[] a IH]; cbn; auto. now rewrite IH. Qed.
Lemma dispatched_app (a b : list (ev H)) : dispatched (a ++ b) = dispatched a ++ dispatched b.
Proof. induction a as [|[] a IH]; cbn; auto. now rewrite IH. Qed.
Lemma abandoned_app (a b : list (ev H)) : abandoned (a ++ b) = abandoned a + abandoned b.
Proof. induction a as [|[] a IH]; cbn; auto. rewrite IH. lia. Qed.

Definition remaining (t : thr) : Z := match t with Looping n => n | _ => 0 end.

(** Invariant of every schedule (throws allowed, before stop). *)
Record RInv (acts : list action) (evs : list (ev H)) (s : sys H) (l : list (list Z)) : Prop := mkRInv {
  ri_store : SInv max_msg 64 slack (y_store s) l;
  ri_seq : dispatched evs ++ l = accepted evs;
  ri_cnt : 0 <= y_cnt s;
  ri_rem : 0 <= remaining (y_thr s);
  ri_ab : 0 <= abandoned evs;
  ri_bal : y_stop s = false ->
     Z.of_nat (length l) = y_cnt s + Z.of_nat (length (y_pend s)) + remaining (y_thr s) + abandoned evs;
  ri_le : y_cnt s + Z.of_nat (length (y_pend s)) + remaining (y_thr s) <= Z.of_nat (length l);
  ri_woken : y_thr s = Woken -> 0 < y_cnt s;
  ri_edge : ~ In AWakeAbort acts -> y_thr s <> Woken -> 0 < y_cnt s -> y_edge s = true
}.

Lemma reactor_new_proj m0 (hs : hmap H) s : reactor_new slack m0 hs = Some s ->
  y_hand s = hs /\ y_stop s = false.
Proof.
  unfold reactor_new. generalize (st_new max_msg 64 slack m0). intros [st|]; cbn [option_map]; intros E;
    [injection E as <-; split; reflexivity|discriminate E].
Qed.

Lemma rinv_new m0 hs s : reactor_new slack m0 hs = Some s -> RInv [] [] s [].
Proof.
  unfold reactor_new. destruct (sinv_new max_msg 64 slack m0 rcfg) as (st & E & HI). rewrite E.
  cbn. intros X. injection X as <-. constructor; cbn; auto; try lia; try discriminate.
Qed.

Lemma mem_tid_remove t l : mem_tid t l = true ->
  length l = S (length (remove_tid t l)).
Proof.
  induction l as [|x l IH]; [discriminate|]. cbn. rewrite (Nat.eqb_sym t x).
  destruct (Nat.eqb x t); cbn; auto.
Qed.

Ltac fin := cbn [y_store y_hand y_cnt y_edge y_thr y_pend y_stop set_thr remaining length] in *.

Lemma rstep_inv acts evs s l a s' es :
  RInv acts evs s l -> (forall t m, a = ASend t m -> Z.of_nat (length m) <= 4088) ->
  rstep s a = Next s' es ->
  exists l', RInv (acts ++ [a]) (evs ++ es) s' l'.
Proof.
  intros HI Hfit Hs. destruct HI as [Hst Hseq Hc Hr Hab Hbal Hle Hw He].
  assert (HeA : forall acts' b, ~ In AWakeAbort (acts' ++ [b]) -> ~ In AWakeAbort acts')
    by (intros acts' b Hn Hi; apply Hn, in_or_app; auto).
  destruct a as [t m|t| | | |b| |]; cbn [ReactorModel.rstep] in Hs.
  - destruct (mem_tid t (y_pend s)); [discriminate|].
    specialize (Hfit t m eq_refl).
    pose proof (sinv_push _ _ _ _ _ m rcfg Hst) as P.
    assert (Hm : 8 + Z.of_nat (length m) <= max_msg) by (unfold max_msg; lia). specialize (P Hm).
    destruct (length l <? 64)%nat.
    + destruct P as (st' & E & Hst'). rewrite E in Hs. injection Hs as <- <-.
      exists (l ++ [m]). constructor; fin; auto.
      * rewrite dispatched_app, accepted_app. cbn. rewrite app_nil_r, app_assoc. now rewrite Hseq.
      * rewrite abandoned_app; cbn; lia.
      * intros Hst0. rewrite abandoned_app, app_length; cbn [length abandoned]. specialize (Hbal Hst0). lia.
      * rewrite app_length; cbn [length]. lia.
      * intros Hn. apply He. eauto.
    + rewrite P in Hs. injection Hs as <- <-.
      exists l. constructor; auto.
      * rewrite dispatched_app, accepted_app. cbn. now rewrite !app_nil_r.
      * rewrite abandoned_app; cbn; lia.
      * intros Hst0. rewrite abandoned_app; cbn [abandoned]. specialize (Hbal Hst0). lia.
      * intros Hn. apply He. eauto.
  - destruct (mem_tid t (y_pend s)) eqn:Em; [|discriminate].
    destruct (Z.ltb_spec (y_cnt s) 18446744073709551614); [|discriminate]. cbn [andb] in Hs.
    injection Hs as <- <-. pose proof (mem_tid_remove _ _ Em) as Hlen.
    exists l. rewrite app_nil_r. constructor; fin; auto; try lia.
    all: intros; try lia; auto.
  - destruct (y_thr s) eqn:Et; try discriminate.
    destruct (y_stop s) eqn:Es; [discriminate|]. destruct (y_edge s) eqn:Ee; [|discriminate].
    destruct (Z.ltb_spec 0 (y_cnt s)); [|discriminate]. cbn [andb negb] in Hs. injection Hs as <- <-.
    exists l. rewrite app_nil_r. constructor; fin; auto; try lia; try congruence.
  - destruct (y_thr s) eqn:Et; try discriminate.
    destruct (y_stop s) eqn:Es; [discriminate|]. destruct (y_edge s) eqn:Ee; [|discriminate].
    destruct (Z.ltb_spec 0 (y_cnt s)); [|discriminate]. cbn [andb negb] in Hs. injection Hs as <- <-.
    exists l. rewrite app_nil_r. constructor; fin; auto; try lia; try congruence.
    intros Hn. exfalso. apply Hn, in_or_app. right; cbn; auto.
  - destruct (y_thr s) eqn:Et; try discriminate.
    destruct (Z.ltb_spec 0 (y_cnt s)); [|discriminate]. injection Hs as <- <-.
    exists l. rewrite app_nil_r. destruct (y_stop s) eqn:Es; constructor; fin; auto; try lia; try congruence.
  - destruct (y_thr s) as [| |n] eqn:Et; try discriminate.
    destruct (Z.ltb_spec 0 n); [|discriminate].
    assert (Hdst : max_msg - 8 <= max_msg) by lia.
    pose proof (sinv_pop _ _ _ _ _ max_msg rcfg Hst Hdst) as P.
    destruct l as [|m l'].
    + fin. lia.
    + destruct P as (st' & E & Hst'). rewrite E in Hs.
      exists l'. fin.
      destruct (y_hand s (mid m)) as [h|] eqn:Eh; destruct b; try discriminate; injection Hs as <- <-;
        constructor; fin; auto; try lia; try congruence;
        rewrite ?dispatched_app, ?accepted_app, ?abandoned_app; cbn [dispatched accepted abandoned];
        rewrite ?app_nil_r, <- ?app_assoc; auto; try lia; intros;
        try (specialize (Hbal ltac:(assumption)); lia);
        (apply He; [eauto|congruence|assumption]).
  - destruct (y_thr s) as [| |n] eqn:Et; try discriminate.
    destruct (Z.eqb_spec n 0); [|discriminate]. injection Hs as <- <-. subst n.
    exists l. rewrite app_nil_r. constructor; fin; auto; try lia; try congruence.
    intros Hn _ Hp. apply He; [eauto|congruence|assumption].
  - injection Hs as <- <-.
    exists l. rewrite app_nil_r. constructor; fin; auto; try lia; try congruence.
    intros Hn. apply He. eauto.
Qed.

Lemma sends_fit_snoc acts a : sends_fit (acts ++ [a]) ->
  sends_fit acts /\ (forall t m, a = ASend t m -> Z.of_nat (length m) <= 4088).
Proof.
  intros Hf. split.
  - intros t m Hi. apply (Hf t m), in_or_app; auto.
  - intros t m ->. apply (Hf t m), in_or_app; cbn; auto.
Qed.

Lemma rrun_inv m0 hs s0 acts evs s :
  reactor_new slack m0 hs = Some s0 -> rrun s0 acts evs s -> sends_fit acts ->
  exists l, RInv acts evs s l.
Proof.
  intros E0 Hr. induction Hr as [s|s acts evs s1 a s2 es Hr IH Hs]; intros Hf.
  - exists []. eapply rinv_new; eauto.
  - apply sends_fit_snoc in Hf as [Hf1 Hf2]. destruct (IH E0 Hf1) as (l & HI).
    eapply rstep_inv; eauto.
Qed.

(** Nothing undefined can happen next. *)
Lemma rstep_defined acts evs s l a :
  RInv acts evs s l -> (forall t m, a = ASend t m -> Z.of_nat (length m) <= 4088) ->
  rstep s a <> Undefined.
Proof.
  intros [Hst Hseq Hc Hr Hab Hbal Hle Hw He] Hfit.
  destruct a as [t m|t| | | |b| |]; cbn [ReactorModel.rstep].
  - destruct (mem_tid t (y_pend s)); [discriminate|].
    specialize (Hfit t m eq_refl).
    pose proof (sinv_push _ _ _ _ _ m rcfg Hst) as P.
    assert (Hm : 8 + Z.of_nat (length m) <= max_msg) by (unfold max_msg; lia). specialize (P Hm).
    destruct (length l <? 64)%nat; [destruct P as (st' & E & _)|rename P into E]; rewrite E; discriminate.
  - destruct (_ && _); discriminate.
  - destruct (y_thr s); try discriminate. destruct (_ && _); discriminate.
  - destruct (y_thr s); try discriminate. destruct (_ && _); discriminate.
  - destruct (y_thr s); try discriminate. destruct (0 <? _); discriminate.
  - destruct (y_thr s) as [| |n]; try discriminate. destruct (0 <? n); try discriminate.
    assert (Hdst : max_msg - 8 <= max_msg) by lia.
    pose proof (sinv_pop _ _ _ _ _ max_msg rcfg Hst Hdst) as P.
    destruct l as [|m l']; [rewrite P; discriminate|].
    destruct P as (st' & E & _); rewrite E.
    destruct (y_hand s (mid m)), b; discriminate.
  - destruct (y_thr s); try discriminate. destruct (_ =? _); discriminate.
  - discriminate.
Qed.

Lemma reactor_safe m0 hs s0 acts evs s :
  reactor_new slack m0 hs = Some s0 -> rrun s0 acts evs s -> sends_fit acts ->
  (exists pending, dispatched evs ++ pending = accepted evs /\ (length pending <= 64)%nat) /\
  (forall a, (forall t m, a = ASend t m -> Z.of_nat (length m) <= 4088) -> rstep s a <> Undefined).
Proof.
  intros E0 Hr Hf. destruct (rrun_inv _ _ _ _ _ _ E0 Hr Hf) as (l & HI). split.
  - exists l. split; [apply (ri_seq _ _ _ _ HI)|]. eapply sinv_len, (ri_store _ _ _ _ HI).
  - intros a Ha. eapply rstep_defined; eauto.
Qed.

Lemma no_stop m0 hs s0 acts evs s :
  reactor_new slack m0 hs = Some s0 -> rrun s0 acts evs s -> ~ In AStop acts -> y_stop s = false.
Proof.
  intros E0 Hr. induction Hr as [s|s acts evs s1 a s2 es Hr IH Hs]; intros Hn.
  - eapply reactor_new_proj; eauto.
  - assert (Hn1 : ~ In AStop acts) by (intros Hi; apply Hn, in_or_app; auto).
    specialize (IH E0 Hn1).
    destruct a; cbn [ReactorModel.rstep] in Hs;
      repeat match type of Hs with
             | (if ?c then _ else _) = _ => destruct c; try discriminate Hs
             | match ?x with _ => _ end = _ => destruct x; try discriminate Hs
             end; try (injection Hs as <- <-; cbn; auto).
    exfalso. apply Hn, in_or_app; cbn; auto.
Qed.

Lemma no_throw s0 acts evs s :
  rrun s0 acts evs s -> ~ In (AIter true) acts -> abandoned evs = 0.
Proof.
  intros Hr. induction Hr as [s|s acts evs s1 a s2 es Hr IH Hs]; intros Hn; [reflexivity|].
  assert (Hn1 : ~ In (AIter true) acts) by (intros Hi; apply Hn, in_or_app; auto).
  rewrite abandoned_app, (IH Hn1).
  assert (Ha : a <> AIter true) by (intros ->; apply Hn, in_or_app; cbn; auto).
  destruct a as [| | | | |b| |]; cbn [ReactorModel.rstep] in Hs.
  6: destruct b; [congruence|].
  all: repeat match type of Hs with
             | (if ?c then _ else _) = _ => destruct c; try discriminate Hs
             | match ?x with _ => _ end = _ => destruct x; try discriminate Hs
             end; try (injection Hs as <- <-; cbn; auto).
Qed.

Lemma mem_tid_in x l : mem_tid x (x :: l) = true.
Proof. cbn. now rewrite Nat.eqb_refl. Qed.

(** No lost wake-up: if some accepted message is undelivered then some
    progress action is enabled. *)
Lemma no_lost_wakeup m0 hs s0 acts evs s :
  reactor_new slack m0 hs = Some s0 -> rrun s0 acts evs s -> sends_fit acts -> calm acts ->
  dispatched evs <> accepted evs ->
  exists a s' es, progress_action a /\ rstep s a = Next s' es.
Proof.
  intros E0 Hr Hf (Hc1 & Hc2 & Hc3) Hne.
  destruct (rrun_inv _ _ _ _ _ _ E0 Hr Hf) as (l & [Hst Hseq Hc Hrm Hab Hbal Hle Hw He]).
  pose proof (no_stop _ _ _ _ _ _ E0 Hr Hc3) as Hns.
  pose proof (no_throw _ _ _ _ Hr Hc1) as Hab0.
  specialize (Hbal Hns).
  assert (Hl : l <> []) by (intros ->; rewrite app_nil_r in Hseq; auto).
  assert (Hl64 : (length l <= 64)%nat) by (eapply sinv_len; eauto).
  clear E0 Hr Hf.
  destruct (y_thr s) as [| |n] eqn:Et.
  - destruct (Z.ltb_spec 0 (y_cnt s)) as [Hp|Hp].
    + exists AWake. eexists. eexists. split; [exact I|]. cbn [ReactorModel.rstep].
      rewrite Et, Hns, (He Hc2 ltac:(discriminate) Hp). destruct (Z.ltb_spec 0 (y_cnt s)); [|lia]. reflexivity.
    + destruct (y_pend s) as [|t p] eqn:Ep.
      * cbn [length remaining] in *. destruct l; [congruence|cbn [length] in *; lia].
      * exists (ASignal t). eexists. eexists. split; [exact I|]. cbn [ReactorModel.rstep].
        rewrite Ep, mem_tid_in. cbn [length remaining andb] in *. destruct (Z.ltb_spec (y_cnt s) 18446744073709551614); [|lia]. reflexivity.
  - specialize (Hw eq_refl). exists ARead. eexists. eexists. split; [exact I|]. cbn [ReactorModel.rstep].
    rewrite Et. destruct (Z.ltb_spec 0 (y_cnt s)); [|lia]. reflexivity.
  - cbn [remaining] in *. destruct (Z.eqb_spec n 0) as [->|Hn].
    + exists ADone. eexists. eexists. split; [exact I|]. cbn [ReactorModel.rstep]. rewrite Et. reflexivity.
    + exists (AIter false).
      assert (Hdst : max_msg - 8 <= max_msg) by lia.
      pose proof (sinv_pop _ _ _ _ _ max_msg rcfg Hst Hdst) as P.
      destruct l as [|m l']; [congruence|]. destruct P as (st' & E & _).
      cbn [ReactorModel.rstep]. rewrite Et, E.
      destruct (Z.ltb_spec 0 n); [|lia].
      destruct (y_hand s (mid m)); eexists; eexists; (split; [exact I|reflexivity]).
Qed.

(** Progress actions strictly decrease a measure: without new sends they stop. *)
Definition rmeasure (s : sys H) : Z :=
  8 * Z.of_nat (length (y_pend s)) + 4 * y_cnt s + 2 * remaining (y_thr s)
  + (if y_edge s then 2 else 0) + (match y_thr s with Idle => 0 | _ => 1 end).

Lemma progress_decreases acts evs s l a s' es :
  RInv acts evs s l -> progress_action a -> rstep s a = Next s' es ->
  0 <= rmeasure s' < rmeasure s.
Proof.
  intros [Hst Hseq Hc Hr Hab Hbal Hle Hw He] Hp Hs. unfold rmeasure.
  destruct a as [t m|t| | | |b| |]; try contradiction; cbn [ReactorModel.rstep] in Hs.
  - destruct (mem_tid t (y_pend s)) eqn:Em; [|discriminate].
    destruct (Z.ltb_spec (y_cnt s) 18446744073709551614); [|discriminate]. cbn [andb] in Hs.
    injection Hs as <- <-. pose proof (mem_tid_remove _ _ Em) as Hlen. fin.
    destruct (y_edge s), (y_thr s); fin; lia.
  - destruct (y_thr s) eqn:Et; try discriminate.
    destruct (y_stop s) eqn:Es; [discriminate|]. destruct (y_edge s) eqn:Ee; [|discriminate].
    destruct (Z.ltb_spec 0 (y_cnt s)); [|discriminate]. cbn [andb negb] in Hs. injection Hs as <- <-.
    fin. lia.
  - destruct (y_thr s) eqn:Et; try discriminate.
    destruct (Z.ltb_spec 0 (y_cnt s)); [|discriminate]. injection Hs as <- <-. fin.
    destruct (y_stop s), (y_edge s); fin; lia.
  - destruct b; [contradiction|].
    destruct (y_thr s) as [| |n] eqn:Et; try discriminate.
    destruct (Z.ltb_spec 0 n); [|discriminate].
    assert (Hdst : max_msg - 8 <= max_msg) by lia.
    pose proof (sinv_pop _ _ _ _ _ max_msg rcfg Hst Hdst) as P.
    destruct l as [|m l'].
    + rewrite P in Hs. injection Hs as <- <-. fin. destruct (y_edge s); lia.
    + destruct P as (st' & E & _). rewrite E in Hs.
      destruct (y_hand s (mid m)); injection Hs as <- <-; fin; destruct (y_edge s); lia.
  - destruct (y_thr s) as [| |n] eqn:Et; try discriminate.
    destruct (Z.eqb_spec n 0); [|discriminate]. injection Hs as <- <-. fin. destruct (y_edge s); lia.
Qed.

(** Hence every accepted message is delivered by any fair continuation; one
    exists, made of progress actions only, and its length is bounded. *)
Lemma drains m0 hs s0 : reactor_new slack m0 hs = Some s0 ->
  forall n acts evs s, rrun s0 acts evs s -> sends_fit acts -> calm acts ->
  rmeasure s <= Z.of_nat n ->
  exists acts' evs' s', rrun s0 (acts ++ acts') (evs ++ evs') s' /\
    Forall progress_action acts' /\ (length acts' <= n)%nat /\
    accepted evs' = [] /\ dispatched (evs ++ evs') = accepted (evs ++ evs').
Proof.
  intros E0. induction n as [|n IH]; intros acts evs s Hr Hf Hc Hm.
  - exists [], [], s. rewrite !app_nil_r. repeat split; auto.
    destruct (list_eq_dec (list_eq_dec Z.eq_dec) (dispatched evs) (accepted evs)) as [|Hne]; [auto|exfalso].
    destruct (no_lost_wakeup _ _ _ _ _ _ E0 Hr Hf Hc Hne) as (a & s' & es & Hp & Hs).
    destruct (rrun_inv _ _ _ _ _ _ E0 Hr Hf) as (l & HI).
    pose proof (progress_decreases _ _ _ _ _ _ _ HI Hp Hs). lia.
  - destruct (list_eq_dec (list_eq_dec Z.eq_dec) (dispatched evs) (accepted evs)) as [|Hne].
    + exists [], [], s. rewrite !app_nil_r. repeat split; auto. cbn; lia.
    + destruct (no_lost_wakeup _ _ _ _ _ _ E0 Hr Hf Hc Hne) as (a & s' & es & Hp & Hs).
      destruct (rrun_inv _ _ _ _ _ _ E0 Hr Hf) as (l & HI).
      pose proof (progress_decreases _ _ _ _ _ _ _ HI Hp Hs) as Hd.
      destruct (IH (acts ++ [a]) (evs ++ es) s') as (acts' & evs' & s'' & Hr' & Hpa & Hlen & Hacc & Heq).
      * econstructor; eauto.
      * intros t m Hi. apply in_app_or in Hi as [Hi|[Hi|[]]]; [eauto|subst; contradiction].
      * destruct Hc as (Hc1 & Hc2 & Hc3). repeat split; intros Hi; apply in_app_or in Hi as [Hi|[Hi|[]]]; auto; subst; contradiction.
      * lia.
      * exists (a :: acts'), (es ++ evs'), s''. rewrite <- !app_assoc in *. repeat split; auto.
        -- cbn; lia.
        -- rewrite accepted_app, Hacc, app_nil_r.
           destruct a as [| | | | |b| |]; try contradiction; cbn [ReactorModel.rstep] in Hs.
           4: destruct b; [contradiction|].
           all: repeat match type of Hs with
             | (if ?c then _ else _) = _ => destruct c; try discriminate Hs
             | match ?x with _ => _ end = _ => destruct x; try discriminate Hs
             end; try (injection Hs as <- <-; cbn; auto).
Qed.

Lemma rexec_rrun s0 acts2 : forall acts1 evs1 s1 evs s,
  rrun s0 acts1 evs1 s1 -> rexec mid s1 evs1 acts2 = Some (evs, s) -> rrun s0 (acts1 ++ acts2) evs s.
Proof.
  induction acts2 as [|a acts2 IH]; intros acts1 evs1 s1 evs s Hr He; cbn [rexec] in He.
  - injection He as <- <-. now rewrite app_nil_r.
  - destruct (rstep s1 a) as [| |s' es] eqn:Es; try discriminate He.
    change (a :: acts2) with ([a] ++ acts2). rewrite app_assoc. eapply IH; [|exact He].
    econstructor; eauto.
Qed.

(** Nothing but new traffic can move a state that is idle with a clear
    counter and no signal in flight. *)
Lemma quiescent_disabled (s : sys H) a : y_thr s = Idle -> y_cnt s = 0 -> y_pend s = [] ->
  progress_action a -> rstep s a = Disabled.
Proof.
  intros Ht Hc Hp Ha. destruct a; try contradiction; cbn [ReactorModel.rstep]; rewrite ?Ht, ?Hc, ?Hp; auto.
  now rewrite andb_false_r.
Qed.

Lemma aborted_disabled (s : sys H) a : y_thr s = Idle -> y_edge s = false -> y_pend s = [] ->
  progress_action a -> rstep s a = Disabled.
Proof.
  intros Ht Hc Hp Ha. destruct a; try contradiction; cbn [ReactorModel.rstep]; rewrite ?Ht, ?Hc, ?Hp; auto.
  now rewrite andb_false_r.
Qed.

(** Exact number of stranded messages. *)
Lemma stranded_count m0 hs s0 acts evs s :
  reactor_new slack m0 hs = Some s0 -> rrun s0 acts evs s -> sends_fit acts ->
  ~ In AStop acts -> y_thr s = Idle -> y_cnt s = 0 -> y_pend s = [] ->
  exists pending, dispatched evs ++ pending = accepted evs /\
    Z.of_nat (length pending) = abandoned evs.
Proof.
  intros E0 Hr Hf Hns Ht Hcnt Hp.
  destruct (rrun_inv _ _ _ _ _ _ E0 Hr Hf) as (l & [Hst Hseq Hc Hrm Hab Hbal Hle Hw He]).
  exists l. split; [auto|]. rewrite (Hbal (no_stop _ _ _ _ _ _ E0 Hr Hns)), Ht, Hcnt, Hp. cbn. lia.
Qed.

(** C09 *)
Lemma refused_unchanged m0 hs s0 acts evs s t m s' es :
  reactor_new slack m0 hs = Some s0 -> rrun s0 acts evs s -> sends_fit acts ->
  Z.of_nat (length m) <= 4088 -> rstep s (ASend t m) = Next s' es ->
  exists pending, dispatched evs ++ pending = accepted evs /\
   ((length pending = 64)%nat /\ s' = s /\ es = [EvRefuse m] \/
    (length pending < 64)%nat /\ es = [EvAccept m] /\ y_pend s' = t :: y_pend s /\ y_cnt s' = y_cnt s).
Proof.
  intros E0 Hr Hf Hm Hs.
  destruct (rrun_inv _ _ _ _ _ _ E0 Hr Hf) as (l & [Hst Hseq Hc Hrm Hab Hbal Hle Hw He]).
  exists l. split; [auto|]. cbn [ReactorModel.rstep] in Hs.
  destruct (mem_tid t (y_pend s)); [discriminate|].
  pose proof (sinv_push _ _ _ _ _ m rcfg Hst) as P.
  assert (Hm' : 8 + Z.of_nat (length m) <= max_msg) by (unfold max_msg; lia). specialize (P Hm').
  pose proof (sinv_len _ _ _ _ _ Hst) as Hl.
  revert P. destruct (Nat.ltb_spec (length l) 64); intros P.
  - destruct P as (st' & E & _). rewrite E in Hs. injection Hs as <- <-. right. auto.
  - rewrite P in Hs. injection Hs as <- <-. left. split; [lia|auto].
Qed.

(** C10 *)
Lemma find_app_reg (r : list (Z * option H)) i h id :
  register_all (fun x => if x =? i then h else None) r id =
  match find (fun x => fst x =? id) r with
  | Some _ => register_all (@h_empty H) r id
  | None => if i =? id then h else None
  end.
Proof.
  assert (G : forall r m1 m2 id', find (fun x => fst x =? id') r <> None ->
              @register_all H m1 r id' = register_all m2 r id').
  { clear. induction r as [|[i h] r IH]; intros m1 m2 id' Hn; cbn in Hn; [congruence|].
    unfold register_all; cbn [fold_left]. fold (register_all (register m1 i h) r).
    fold (register_all (register m2 i h) r).
    destruct (find (fun x => fst x =? id') r) eqn:Ef.
    - apply IH. congruence.
    - destruct (Z.eqb_spec i id') as [->|]; [|congruence].
      assert (N : forall r m, find (fun x => fst x =? id') r = None -> @register_all H m r id' = m id').
      { clear. induction r as [|[j g] r IH]; intros m Hn; [reflexivity|]. cbn in Hn.
        destruct (Z.eqb_spec j id') as [->|Hj]; [discriminate|].
        unfold register_all; cbn [fold_left]. fold (register_all (register m j g) r). rewrite (IH _ Hn).
        unfold register. destruct (Z.eqb_spec id' j); [congruence|reflexivity]. }
      rewrite !(N r _ Ef). unfold register. now rewrite Z.eqb_refl. }
  destruct (find (fun x => fst x =? id) r) eqn:Ef.
  - apply G. congruence.
  - assert (N : forall r m, find (fun x => fst x =? id) r = None -> @register_all H m r id = m id).
    { clear. induction r as [|[j g] r IH]; intros m Hn; [reflexivity|]. cbn in Hn.
      destruct (Z.eqb_spec j id) as [->|Hj]; [discriminate|].
      unfold register_all; cbn [fold_left]. fold (register_all (register m j g) r). rewrite (IH _ Hn).
      unfold register. destruct (Z.eqb_spec id j); [congruence|reflexivity]. }
    rewrite (N r _ Ef). rewrite Z.eqb_sym. reflexivity.
Qed.

Lemma register_all_last (regs : list (Z * option H)) id :
  register_all h_empty regs id = last_reg regs id.
Proof.
  induction regs as [|[i h] r IH]; [reflexivity|].
  cbn [last_reg]. rewrite <- IH. rewrite <- find_app_reg. reflexivity.
Qed.

Lemma y_hand_const s0 acts evs s : rrun s0 acts evs s -> y_hand s = y_hand s0.
Proof.
  intros Hr. induction Hr as [s|s acts evs s1 a s2 es Hr IH Hs]; [reflexivity|].
  rewrite <- IH. destruct a; cbn [ReactorModel.rstep] in Hs;
      repeat match type of Hs with
             | (if ?c then _ else _) = _ => destruct c; try discriminate Hs
             | match ?x with _ => _ end = _ => destruct x; try discriminate Hs
             end; try (injection Hs as <- <-; cbn; auto).
Qed.

Lemma dispatch_last m0 regs s0 acts evs s m h :
  reactor_new slack m0 (register_all h_empty regs) = Some s0 -> rrun s0 acts evs s ->
  In (EvDispatch m h) evs -> h = last_reg regs (mid m).
Proof.
  intros E0 Hr.
  assert (Hh0 : y_hand s0 = register_all h_empty regs).
  { eapply reactor_new_proj; eauto. }
  clear E0.
  induction Hr as [s|s acts evs s1 a s2 es Hr IH Hs]; intros Hi; [contradiction|].
  apply in_app_or in Hi as [Hi|Hi]; [auto|].
  pose proof (y_hand_const _ _ _ _ Hr) as Hh.
  rewrite <- register_all_last, <- Hh0, <- Hh.
  destruct a as [t x|t| | | |b| |]; cbn [ReactorModel.rstep] in Hs.
  6:{ destruct (y_thr s1) as [| |n]; try discriminate Hs. destruct (0 <? n); try discriminate Hs.
      destruct (st_pop (y_store s1) max_msg) as [[st' [m'|]]|]; try discriminate Hs;
        [|injection Hs as <- <-; contradiction].
      destruct (y_hand s1 (mid m')) eqn:Eh; destruct b; try discriminate Hs; injection Hs as <- <-;
        cbn in Hi; destruct Hi as [Hi|Hi]; try contradiction; try (injection Hi as <- <-; congruence).
      destruct Hi as [Hi|[]]; discriminate Hi. }
  all: repeat match type of Hs with
             | (if ?c then _ else _) = _ => destruct c; try discriminate Hs
             | match ?x with _ => _ end = _ => destruct x eqn:?; try discriminate Hs
             end; try (injection Hs as <- <-; cbn in Hi; try contradiction);
      repeat match goal with
             | X : _ \/ _ |- _ => destruct X
             | X : False |- _ => contradiction
             | X : _ = EvDispatch _ _ |- _ => discriminate X
             end.
Qed.
End P.
