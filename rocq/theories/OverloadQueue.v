(** The Modbus server's accept queue: sessions' timers and links are counted by the sessions in use. *)
From Verif Require Import Base QueueModel QueueSpec PoolModel PoolSpec PoolProofs ModbusCodecModel ModbusCodecSpec ModbusClientModel ModbusServerModel ModbusServerSpec
  ModbusServerProofs ModbusServerRuns ModbusServerFacts OverloadModel.
Local Open Scope Z_scope.

Definition qtrace := list (qev * list (vev * list sout)).
Definition qev_ok (e : qev) : Prop := match e with QOther e => vev_ok e | _ => True end.
(** Histories of a started server sharing its reactor's pools with [other] clients. *)
Inductive qreach (b0 : list Z) (q0 : adu_req) (other : nat) : mhost -> qtrace -> Prop :=
| qr_new v : mem_ok b0 q0 -> srv_new maxNumSession b0 q0 = Some v -> qreach b0 q0 other (mkQ v 0 other) []
| qr_step h tr e h' o : qreach b0 q0 other h tr -> qev_ok e -> q_step h e = Some (h', o) -> qreach b0 q0 other h' (tr ++ [(e, o)]).
Definition qserved (tr : qtrace) : strace := flat_map snd tr.
(** accept(2) never failed. *)
Definition no_failure (tr : qtrace) : Prop := forall x, In x tr -> fst x <> QAccept false.
(** Sessions in use. *)
Definition in_use (tr : qtrace) : nat := total starts_of (qserved tr) - total frees_of (qserved tr).

Definition tidy (s : sess) : Prop := x_st s = SInit -> x_timer s = None /\ x_link s = None.

Lemma transit_tidy uid s st s' os : tidy s -> s_transit uid s st = Some (s', os) -> tidy s'.
Proof.
  intros T H. unfold s_transit in H. destruct (sst_eqb (x_st s) st); [now injection H as <- <-|].
  destruct (s_exit uid s) as [[s1 o1]|]; [|discriminate]. destruct (s_enter uid (y_st s1 st)) as [[s2 o2]|] eqn:E; [|discriminate]. injection H as <- <-.
  unfold s_enter, s_arm in E. cbn [x_st y_st x_timer y_timer] in E. destruct st.
  - injection E as <- <-. intros _. split; reflexivity.
  - destruct (x_timer s1); [|discriminate]. injection E as <- <-. discriminate.
  - destruct (x_timer s1); [|discriminate]. injection E as <- <-. discriminate.
Qed.
Lemma then_tidy uid s1 o st s' os : tidy s1 -> s_then (Some (s1, o)) (fun s => s_transit uid s st) = Some (s', os) -> tidy s'.
Proof.
  intros T H. unfold s_then in H. destruct (s_transit uid s1 st) as [[s2 o2]|] eqn:E; [|discriminate]. injection H as <- <-. eapply transit_tidy; eauto.
Qed.
Lemma receive_st uid s r s1 o res : s_receive uid s r = Some (s1, o, res) -> x_st s1 = x_st s.
Proof.
  unfold s_receive. destruct (maxAduLen <? x_len s); [intros H; now injection H as <- <- <-|]. destruct (x_link s) as [fd|]; [|discriminate].
  destruct (if fd then r else RxErr); try (intros H; now injection H as <- <- <-). cbv zeta.
  destruct (frame_check _ _); try (intros H; now injection H as <- <- <-). destruct (decode_into _ _); try discriminate; [|intros H; now injection H as <- <- <-].
  destruct (negb _); [discriminate|]. intros H. now injection H as <- <- <-.
Qed.
Lemma data_tidy uid s r s' os : tidy s -> s_data uid s r = Some (s', os) -> tidy s'.
Proof.
  intros T H. unfold s_data in H. destruct (x_st s) eqn:Es; [now injection H as <- <-| |].
  all: destruct (s_receive uid s r) as [[[s1 o] res]|] eqn:E; [|discriminate]; pose proof (receive_st _ _ _ _ _ _ E) as X; rewrite Es in X.
  all: assert (T1 : tidy s1) by (intros Y; congruence).
  all: destruct res; try (now injection H as <- <-); exact (then_tidy _ _ _ _ _ _ T1 H).
Qed.
Lemma reply_tidy uid s p sok s' os : tidy s -> s_reply uid s p sok = Some (s', os) -> tidy s'.
Proof.
  intros T H. unfold s_reply in H. destruct (x_st s) eqn:Es; try (now injection H as <- <-).
  destruct (s_send uid s p sok) as [[[s1 o] res]|] eqn:E; [|discriminate]. destruct (send_spec _ _ _ _ _ _ _ E) as (-> & _).
  destruct res; try (now injection H as <- <-); exact (then_tidy _ _ _ _ _ _ T H).
Qed.
Lemma timer_tidy uid s s' os : tidy s -> s_timer uid s = Some (s', os) -> tidy s'.
Proof.
  intros T H. unfold s_timer in H. cbn [x_st y_timer] in H. destruct (x_st s) eqn:Es.
  - injection H as <- <-. intros _. cbn [x_timer x_link y_timer]. destruct (T Es) as [-> ->]. split; reflexivity.
  - apply (transit_tidy _ _ _ _ _) in H; [exact H|]. intros X. cbn in X. congruence.
  - apply (transit_tidy _ _ _ _ _) in H; [exact H|]. intros X. cbn in X. congruence.
Qed.
Lemma error_tidy s : tidy s -> tidy (s_error s).
Proof. intros T X. cbn in X. destruct (T X) as [A B]. cbn. rewrite A, B. auto. Qed.
Lemma prepare_tidy uid s tok aok s' os : tidy s -> (aok = true \/ tok = false) -> s_prepare uid s tok tok aok = Some (s', os) -> tidy s'.
Proof.
  intros T D H. unfold s_prepare in H. destruct tok; cbn [negb] in H; [|now injection H as <- <-]. destruct D as [->|D]; [|discriminate]. cbn [negb] in H.
  unfold s_start in H. cbn [x_st y_link y_timer] in H. destruct (x_st s) eqn:Es.
  - unfold s_transit, s_exit, s_enter, s_arm in H. cbn [x_st y_link y_timer y_st x_timer] in H. rewrite Es in H. cbn in H. injection H as <- <-. intros X. discriminate X.
  - injection H as <- <-. intros X. cbn in X. congruence.
  - injection H as <- <-. intros X. cbn in X. congruence.
Qed.

(** Sessions' handlers throw nothing. *)
Definition calm (os : list sout) : Prop := Forall (fun o => o <> TThrow) os.
Lemma transit_calm uid s st s' os : s_transit uid s st = Some (s', os) -> calm os.
Proof.
  intros H. unfold s_transit in H. destruct (sst_eqb (x_st s) st); [injection H as <- <-; constructor|].
  destruct (s_exit uid s) as [[s1 o1]|] eqn:E1; [|discriminate]. destruct (s_enter uid (y_st s1 st)) as [[s2 o2]|] eqn:E; [|discriminate]. injection H as <- <-. apply Forall_app. split.
  - unfold s_exit, s_disarm in E1. destruct (x_st s); [injection E1 as <- <-; constructor| |]; (destruct (x_timer s); [|discriminate]; injection E1 as <- <-; constructor; [discriminate|constructor]).
  - unfold s_enter, s_arm in E. cbn [x_st y_st x_timer y_timer] in E. destruct st; [injection E as <- <-; constructor; [discriminate|constructor]| |];
      (destruct (x_timer s1); [|discriminate]; injection E as <- <-; constructor; [discriminate|constructor]).
Qed.
Lemma then_calm uid s1 o st s' os : calm o -> s_then (Some (s1, o)) (fun s => s_transit uid s st) = Some (s', os) -> calm os.
Proof.
  intros T H. unfold s_then in H. destruct (s_transit uid s1 st) as [[s2 o2]|] eqn:E; [|discriminate]. injection H as <- <-. apply Forall_app. split; [exact T|]. eapply transit_calm; eauto.
Qed.
Lemma receive_calm uid s r s1 o res : s_receive uid s r = Some (s1, o, res) -> calm o.
Proof.
  unfold s_receive. destruct (maxAduLen <? x_len s); [intros H; injection H as <- <- <-; constructor|]. destruct (x_link s) as [fd|]; [|discriminate].
  destruct (if fd then r else RxErr); try (intros H; injection H as <- <- <-; constructor). cbv zeta.
  destruct (frame_check _ _); try (intros H; injection H as <- <- <-; constructor). destruct (decode_into _ _); try discriminate; [|intros H; injection H as <- <- <-; constructor].
  destruct (negb _); [discriminate|]. intros H. injection H as <- <- <-. constructor; [discriminate|constructor].
Qed.
Lemma step_calm v e v' os : (forall a b c, e <> VAccept a b c) -> srv_step v e = Some (v', os) -> throws_of (e, os) = 0%nat.
Proof.
  intros Hne H. assert (C : calm os).
  { assert (On : forall uid k, srv_on v uid k = Some (v', os) -> (forall s s' o, k s = Some (s', o) -> calm o) -> calm os).
    { intros uid k X Hk. unfold srv_on in X. destruct (pool_get (v_pool v) uid); [|discriminate]. destruct (nth_error (v_sess v) n) as [s|]; [|discriminate].
      destruct (k s) as [[s1 o]|] eqn:Ek; [|discriminate]. destruct (srv_release (v_pool v) o); [|discriminate]. injection X as <- <-. eauto. }
    destruct e as [tok lok aok|uid r|uid|uid|p sok|]; cbn [srv_step] in H.
    - now destruct (Hne tok lok aok).
    - apply (On _ _ H). intros s s' o E. unfold s_data in E. destruct (x_st s); [injection E as <- <-; constructor| |];
        (destruct (s_receive uid s r) as [[[s1 o1] res]|] eqn:Er; [|discriminate]; pose proof (receive_calm _ _ _ _ _ _ Er) as Z; destruct res; try (injection E as <- <-; exact Z); exact (then_calm _ _ _ _ _ _ Z E)).
    - apply (On _ _ H). intros s s' o E. injection E as <- <-. constructor.
    - apply (On _ _ H). intros s s' o E. unfold s_timer in E. cbn [x_st y_timer] in E. destruct (x_st s); [injection E as <- <-; constructor| |]; exact (transit_calm _ _ _ _ _ E).
    - apply (On _ _ H). intros s s' o E. unfold s_reply in E. destruct (x_st s); try (injection E as <- <-; constructor).
      destruct (s_send (p_session p) s p sok) as [[[s1 o1] res]|] eqn:Er; [|discriminate]. destruct (send_spec _ _ _ _ _ _ _ Er) as (_ & _ & Z).
      assert (Z' : calm o1) by (destruct Z as [->|(bs & -> & _)]; [constructor|constructor; [discriminate|constructor]]).
      destruct res; try (injection E as <- <-; exact Z'); exact (then_calm _ _ _ _ _ _ Z' E).
    - injection H as <- <-. constructor. }
  clear - C. unfold throws_of, count. cbn [snd]. induction C as [|o os Ho Hs IH]; [reflexivity|]. cbn [filter]. destruct o; try exact IH. congruence.
Qed.

Definition all_tidy (v : server) : Prop := forall s, In s (v_sess v) -> tidy s.
Lemma upd_in {A} (l : list A) i x y : In y (upd l i x) -> y = x \/ In y l.
Proof.
  revert i. induction l as [|a l IH]; intros i H; [destruct i; now destruct H|]. destruct i; cbn in H; destruct H as [H|H]; auto; [right; now right|right; now left|].
  destruct (IH _ H); [auto|right; now right].
Qed.
Lemma on_tidy v uid k v' os : all_tidy v -> (forall s s' o, tidy s -> k s = Some (s', o) -> tidy s') -> srv_on v uid k = Some (v', os) -> all_tidy v'.
Proof.
  intros A K H. unfold srv_on in H. destruct (pool_get (v_pool v) uid) as [i|]; [|discriminate]. destruct (nth_error (v_sess v) i) as [s|] eqn:E; [|discriminate].
  destruct (k s) as [[s1 o]|] eqn:Ek; [|discriminate]. destruct (srv_release (v_pool v) o); [|discriminate]. injection H as <- <-. intros x Hx. cbn in Hx.
  apply upd_in in Hx as [->|Hx]; [|now apply A]. eapply K; eauto. apply A. eapply nth_error_In; eauto.
Qed.
Lemma step_tidy v e v' os : all_tidy v -> (forall tok lok aok, e = VAccept tok lok aok -> tok = lok /\ (aok = true \/ tok = false)) -> srv_step v e = Some (v', os) -> all_tidy v'.
Proof.
  intros A D H. destruct e as [tok lok aok|uid r|uid|uid|p sok|]; cbn [srv_step] in H.
  - destruct (D _ _ _ eq_refl) as [<- D']. destruct (negb (v_acc v)); [now injection H as <- <-|]. destruct (pool_alloc (v_pool v)) as [[p [uid|]]|]; [| |discriminate].
    + revert H. apply on_tidy; [exact A|]. intros s s' o T E. exact (prepare_tidy _ _ _ _ _ _ T D' E).
    + injection H as <- <-. exact A.
  - revert H. apply on_tidy; [exact A|]. intros s s' o T E. exact (data_tidy _ _ _ _ _ T E).
  - revert H. apply on_tidy; [exact A|]. intros s s' o T E. injection E as <- <-. now apply error_tidy.
  - revert H. apply on_tidy; [exact A|]. intros s s' o T E. exact (timer_tidy _ _ _ _ T E).
  - revert H. apply on_tidy; [exact A|]. intros s s' o T E. exact (reply_tidy _ _ _ _ _ _ T E).
  - injection H as <- <-. exact A.
Qed.

Section Counted.
Context (b0 : list Z) (q0 : adu_req).

Lemma counted v tr : reach b0 q0 v tr -> all_tidy v -> filter sess_timer (v_sess v) = filter activeb (v_sess v) /\ filter sess_link (v_sess v) = filter activeb (v_sess v).
Proof.
  intros R A. destruct (reach_inv _ _ _ _ R) as [L S _ _].
  assert (X : forall s, In s (v_sess v) -> sess_timer s = activeb s /\ sess_link s = activeb s).
  { intros s Hi. pose proof (A s Hi) as T. apply In_nth_error in Hi as (i & Hi). assert (Hl : (i < 256)%nat) by (rewrite <- L; apply nth_error_Some; congruence).
    pose proof (S (Z.of_nat i) s ltac:(lia)) as HS. rewrite Nat2Z.id in HS. specialize (HS Hi). pose proof (so_st _ _ _ HS) as Y. unfold sess_timer, sess_link, activeb, tidy in *.
    destruct (x_st s).
    - destruct (T eq_refl) as [-> ->]. auto.
    - destruct Y as (_ & -> & (fd & ->) & _). auto.
    - destruct Y as (_ & -> & (fd & ->) & _). auto. }
  split; apply filter_ext_in; intros s Hs; apply X, Hs.
Qed.

Record QInv (other : nat) (h : mhost) (tr : qtrace) : Prop := {
  qi_reach : reach b0 q0 (q_srv h) (qserved tr);
  qi_other : q_other h = other;
  qi_tidy : no_failure tr -> all_tidy (q_srv h);
  qi_leak : no_failure tr -> (total throws_of (qserved tr) = 0 \/ total throws_of (qserved tr) + 32 <= 256 + other)%nat
}.

Lemma qserved_snoc tr e o : qserved (tr ++ [(e, o)]) = qserved tr ++ o.
Proof. unfold qserved. rewrite flat_map_app. cbn. now rewrite app_nil_r. Qed.

Lemma frees_eq other h tr : QInv other h tr -> no_failure tr ->
  (timers_free h = Nat.ltb (other + in_use tr) 32)%nat /\ (slinks_free h = Nat.ltb (other + in_use tr) 32)%nat /\ in_use tr = nactive (v_sess (q_srv h)).
Proof.
  intros I F. destruct (counted _ _ (qi_reach _ _ _ I) (qi_tidy _ _ _ I F)) as [A B].
  assert (T : in_use tr = nactive (v_sess (q_srv h))) by (unfold in_use; destruct (reach_inv _ _ _ _ (qi_reach _ _ _ I)) as [_ _ _ T]; lia).
  unfold timers_free, slinks_free. rewrite A, B, (qi_other _ _ _ I), T. auto.
Qed.

Lemma qinv_step other h tr e h' o : QInv other h tr -> qev_ok e -> q_step h e = Some (h', o) -> QInv other h' (tr ++ [(e, o)]).
Proof.
  intros I Ok S. assert (Fi : no_failure (tr ++ [(e, o)]) -> no_failure tr /\ e <> QAccept false).
  { intros F. split; [intros x Hx; apply F, in_or_app; now left|]. apply (F (e, o)), in_or_app. right. now left. }
  destruct e as [|aok|e]; cbn [q_step] in S.
  - injection S as <- <-. constructor; rewrite ?qserved_snoc, ?app_nil_r; cbn [q_srv q_other]; try apply I; intros F; apply I, Fi, F.
  - destruct (q_wait h) as [|n]; [discriminate|]. destruct (srv_step (q_srv h) (VAccept (timers_free h) (slinks_free h) aok)) as [[v os]|] eqn:E; [|discriminate]. injection S as <- <-.
    constructor; rewrite ?qserved_snoc; cbn [q_srv q_other].
    + eapply re_step; [apply I|exact Logic.I|reflexivity|exact E].
    + apply I.
    + intros F. apply Fi in F as [F Fa]. destruct (frees_eq other h tr I F) as (A & B & _). apply (step_tidy _ _ _ _ (qi_tidy _ _ _ I F)) in E; [exact E|].
      intros tok lok a X. injection X as <- <- <-. split; [congruence|]. left. destruct aok; congruence.
    + intros F. apply Fi in F as [F Fa]. destruct (frees_eq other h tr I F) as (A & B & C). rewrite total_snoc. unfold throws_of at 2 4. cbn [snd].
      destruct aok; [|congruence]. destruct (v_acc (q_srv h)) eqn:Ea.
      * destruct (capacity b0 q0 _ _ (timers_free h) (slinks_free h) true (qi_reach _ _ _ I) Ea) as (C1 & C2 & v' & os' & E' & Ho). rewrite E in E'. injection E' as <- <-.
        fold (in_use tr) in Ho, C2. destruct (Nat.ltb_spec (in_use tr + total throws_of (qserved tr)) 256) as [Hl|Hl].
        -- rewrite A, B in Ho. destruct (Nat.ltb_spec (other + in_use tr) 32) as [Hf|Hf]; cbn [andb] in Ho.
           ++ destruct Ho as (uid & _ & _ & ->). cbn. rewrite Nat.add_0_r. apply I, F.
           ++ subst os. cbn. right. lia.
        -- subst os. cbn. rewrite Nat.add_0_r. apply I, F.
      * cbn [srv_step] in E. rewrite Ea in E. cbn in E. injection E as <- <-. cbn. rewrite Nat.add_0_r. apply I, F.
  - assert (G : (forall a b c, e <> VAccept a b c) -> srv_enabled (q_srv h) e = true -> forall v os, srv_step (q_srv h) e = Some (v, os) -> h' = mkQ v (q_wait h) (q_other h) -> o = [(e, os)] -> QInv other h' (tr ++ [(QOther e, o)])).
    { intros Hne En v os E -> ->. assert (R1 : reach b0 q0 v (qserved tr ++ [(e, os)])) by (eapply re_step; [apply I|exact Ok|exact En|exact E]).
      constructor; rewrite ?qserved_snoc; cbn [q_srv q_other].
      - exact R1.
      - apply I.
      - intros F. apply (step_tidy _ _ _ _ (qi_tidy _ _ _ I (proj1 (Fi F)))) in E; [exact E|]. intros a b c X. now apply Hne in X.
      - intros F. rewrite total_snoc. assert (X : throws_of (e, os) = 0%nat); [|rewrite X, Nat.add_0_r; apply I, Fi, F]. 
        exact (step_calm _ _ _ _ Hne E). }
    destruct e as [tok lok aok|uid r|uid|uid|p sok|]; [discriminate S| | | | |];
      (destruct (srv_enabled (q_srv h) _) eqn:En; [|discriminate S]); (destruct (srv_step (q_srv h) _) as [[v os]|] eqn:E; [|discriminate S]); injection S as <- <-;
      (apply (G ltac:(discriminate) eq_refl v os eq_refl eq_refl eq_refl)).
Qed.

Lemma qreach_inv other h tr : qreach b0 q0 other h tr -> QInv other h tr.
Proof.
  induction 1 as [v Hm Hn|h tr e h' o R IH Ok S].
  - constructor; cbn [q_srv q_other].
    + now apply re_new.
    + reflexivity.
    + intros _ s Hs _. apply srv_new_some in Hn as (p & _ & ->). cbn [v_sess] in Hs. apply repeat_spec in Hs as ->. split; reflexivity.
    + intros _. now left.
  - exact (qinv_step other h tr e h' o IH Ok S).
Qed.

(** A waiting client is served as soon as a session, a timer and a link are free, however long the server was full. *)
Theorem full_recovers other h tr : qreach b0 q0 other h tr -> no_failure tr -> v_acc (q_srv h) = true -> (0 < q_wait h)%nat -> (other + in_use tr < 32)%nat ->
  exists h' uid, q_step h (QAccept true) = Some (h', [(VAccept true true true, [TArm uid 30000000])]) /\ 0 <= uid < 256 /\ ~ live uid (qserved tr) /\
    q_wait h' = pred (q_wait h).
Proof.
  intros R F Ha Hw Hu. pose proof (qreach_inv _ _ _ R) as I. destruct (frees_eq other h tr I F) as (A & B & C). destruct (Nat.ltb_spec (other + in_use tr) 32); [|lia].
  destruct (capacity b0 q0 _ _ true true true (qi_reach _ _ _ I) Ha) as (C1 & C2 & v' & os' & E' & Ho). fold (in_use tr) in Ho, C2.
  pose proof (qi_leak _ _ _ I F) as Lk. destruct (Nat.ltb_spec (in_use tr + total throws_of (qserved tr)) 256) as [Hl|Hl]; [|lia]. cbn [andb] in Ho. destruct Ho as (uid & Hr & Hnl & ->).
  cbn [q_step]. destruct (q_wait h) as [|n] eqn:Ew; [lia|]. rewrite A, B, E'. cbn [existsb orb]. eexists _, uid. split; [reflexivity|]. auto.
Qed.

(** While the server is full a waiting client stays, and every round of the loop takes an id out of circulation until there are none. *)
Theorem full_leaks other h tr aok : qreach b0 q0 other h tr -> no_failure tr -> v_acc (q_srv h) = true -> (0 < q_wait h)%nat -> (32 <= other + in_use tr)%nat ->
  (in_use tr + total throws_of (qserved tr) <= 256)%nat /\
  exists h', q_step h (QAccept aok) = Some (h', [(VAccept false false aok, if (in_use tr + total throws_of (qserved tr) <? 256)%nat then [TThrow] else [])]) /\ q_wait h' = q_wait h.
Proof.
  intros R F Ha Hw Hu. pose proof (qreach_inv _ _ _ R) as I. destruct (frees_eq other h tr I F) as (A & B & C). destruct (Nat.ltb_spec (other + in_use tr) 32); [lia|].
  destruct (capacity b0 q0 _ _ false false aok (qi_reach _ _ _ I) Ha) as (C1 & C2 & v' & os' & E' & Ho). fold (in_use tr) in Ho, C2. split; [exact C2|].
  cbn [q_step]. destruct (q_wait h) as [|n] eqn:Ew; [lia|]. rewrite A, B, E'. cbn [andb] in Ho.
  assert (Eo : os' = if (in_use tr + total throws_of (qserved tr) <? 256)%nat then [TThrow] else []) by (destruct (Nat.ltb (in_use tr + total throws_of (qserved tr)) 256); exact Ho).
  rewrite Eo. eexists. split; [reflexivity|]. cbn [q_wait]. destruct (Nat.ltb _ _); reflexivity.
Qed.

(** Once 256 ids are lost nobody is served any more. *)
Theorem all_spent other h tr aok : qreach b0 q0 other h tr -> v_acc (q_srv h) = true -> (0 < q_wait h)%nat -> (256 <= total throws_of (qserved tr))%nat ->
  exists h2 e, q_step h (QAccept aok) = Some (h2, [(e, [])]) /\ q_wait h2 = q_wait h.
Proof.
  intros R Ha Hw Ht. pose proof (qreach_inv _ _ _ R) as I. destruct (capacity b0 q0 _ _ (timers_free h) (slinks_free h) aok (qi_reach _ _ _ I) Ha) as (C1 & C2 & v' & os' & E' & Ho).
  fold (in_use tr) in Ho, C2. destruct (Nat.ltb_spec (in_use tr + total throws_of (qserved tr)) 256) as [Hl|Hl]; [lia|]. cbn [andb] in Ho. rewrite !andb_false_r in Ho || idtac. subst os'.
  cbn [q_step]. destruct (q_wait h) as [|n] eqn:Ew; [lia|]. rewrite E'. eexists _, _. split; [reflexivity|]. reflexivity.
Qed.
End Counted.

(** Computed runs. *)
Fixpoint qgo (h : mhost) (es : list qev) : option (mhost * qtrace) :=
  match es with
  | [] => Some (h, [])
  | e :: r => match q_step h e with
              | None => None
              | Some (h1, o) => match qgo h1 r with None => None | Some (h2, tr) => Some (h2, (e, o) :: tr) end
              end
  end.
Definition qstart (o : option server) (other : nat) (es : list qev) : option (mhost * qtrace) := match o with Some v => qgo (mkQ v 0 other) es | None => None end.
Lemma qgo_reach b0 q0 other es : forall h tr0 h' tr, qreach b0 q0 other h tr0 -> Forall qev_ok es -> qgo h es = Some (h', tr) -> qreach b0 q0 other h' (tr0 ++ tr).
Proof.
  induction es as [|e es IH]; intros h tr0 h' tr R Ok H; cbn [qgo] in H.
  - injection H as <- <-. now rewrite app_nil_r.
  - destruct (q_step h e) as [[h1 o]|] eqn:S; [|discriminate]. destruct (qgo h1 es) as [[h2 tr1]|] eqn:G; [|discriminate]. injection H as <- <-.
    inversion Ok as [|? ? O1 O2]; subst. change ((e, o) :: tr1) with ([(e, o)] ++ tr1). rewrite app_assoc. apply (IH h1 _ _ _ (qr_step _ _ _ _ _ _ _ _ R O1 S) O2 G).
Qed.
Lemma qstart_reach b0 q0 other o es h tr : mem_ok b0 q0 -> Forall qev_ok es -> srv_new maxNumSession b0 q0 = o -> qstart o other es = Some (h, tr) -> qreach b0 q0 other h tr.
Proof.
  intros Hm Ok E H. destruct o as [v|]; [|discriminate]. cbn [qstart] in H. apply (qgo_reach _ _ _ es (mkQ v 0 other) [] h tr); auto. now apply qr_new.
Qed.
Lemma qgo_events es : forall h h' tr, qgo h es = Some (h', tr) -> map fst tr = es.
Proof.
  induction es as [|e es IH]; intros h h' tr H; cbn [qgo] in H; [now injection H as <- <-|].
  destruct (q_step h e) as [[h1 o]|]; [|discriminate]. destruct (qgo h1 es) as [[h2 tr1]|] eqn:G; [|discriminate]. injection H as <- <-. cbn [map fst]. f_equal. eauto.
Qed.
Lemma total_app f (a b : strace) : total f (a ++ b) = (total f a + total f b)%nat.
Proof. induction b as [|x b IH] using rev_ind; [rewrite app_nil_r; cbn; lia|]. rewrite app_assoc, !total_snoc, IH. lia. Qed.
