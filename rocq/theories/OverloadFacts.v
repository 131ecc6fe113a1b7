(** Consequences of the host's invariant: connections whose events were dropped, the accept queue. *)
From Verif Require Import Base QueueModel QueueSpec QueueProofs PoolModel PoolSpec PoolProofs EntProofs ModbusCodecModel ModbusCodecSpec
  ModbusClientModel ModbusClientProofs UaCodecModel UaCodecSpec UaCodecProofs UaCodecLocal UaTcpModel UaTcpSpec UaTcpProofs UaTcpRuns UaTcpFacts
  OverloadModel OverloadSpec OverloadProofs.
Local Open Scope Z_scope.

(** ** A serving connection and one event of the transport *)
Lemma accept_same v tr tok v' os tr' u c : TInv v tr -> TInv v' tr' -> tsrv_step v (EvAccept true true tok) = Some (v', os) ->
  conn_at v u = Some c -> t_st c <> UInit -> conn_at v' u = Some c /\ Forall (fun o => ~ uabout u o \/ o = UThrow) os.
Proof.
  intros I I' S Ec Hn. apply conn_at_inv in Ec as [Hu Ec]. rewrite conn_at_of by auto.
  destruct (conn_inv v tr u I Hu) as (x & Ex & _ & Nx & _). destruct (conn_inv v' _ u I' Hu) as (y & Ey & _ & Ny & _).
  rewrite Ec in Ex. injection Ex as <-. cbn [tsrv_step andb negb] in S. destruct c32 as (C1 & C2 & C3).
  destruct (own_alloc _ _ _ C1 C2 _ _ _ (ti_own _ _ I)) as [(_ & p' & Ep & _)|(Hf & p' & i & d & Ep & Ei & Ha & _ & _ & Eg)]; rewrite Ep in S.
  - apply some2 in S as (<- & <-). cbn [d_conn] in Ny. split; [congruence|constructor].
  - set (t := Z.of_nat i + 1) in *. assert (Hi : (i < 32)%nat) by (rewrite <- (own_len _ _ _ _ _ _ (ti_own _ _ I)); apply nth_error_Some; congruence).
    destruct (conn_inv v tr t I ltac:(lia)) as (z & Ez & Tz & Nz & Gz). replace (Z.to_nat (t - 1)) with i in * by lia. rewrite Ei in Nz. injection Nz as <-.
    assert (Hini : t_st d = UInit) by (pose proof (uact_spec d) as X; now rewrite Ha in X).
    assert (Ne : u <> t). { intros ->. replace (Z.to_nat (t - 1)) with i in Nx by lia. congruence. }
    unfold tsrv_on in S. cbn [d_pool d_conn] in S. rewrite Eg, Gz, Ei in S.
    assert (Ea : u_accept t d tok = if tok then Some (mkT UHello (Some (Some uaTimeout)) (Some true) (mkSdu 0 0 (k_pkt (t_rx d))) (t_chan d), [UArm t uaTimeout])
                                   else Some (z_link d (Some true), [UThrow])).
    { unfold u_accept. rewrite Hini. destruct tok; cbn [negb]; [|reflexivity]. rewrite tr_hello; [reflexivity|exact Hini|reflexivity]. }
    rewrite Ea in S. destruct tok; cbn [tsrv_release] in S; apply some2 in S as (<- & <-); cbn [d_conn] in Ny; rewrite nth_error_upd_neq in Ny by lia; (split; [congruence|]).
    + constructor; [left; cbn; congruence|constructor].
    + constructor; [now right|constructor].
Qed.

Lemma step_stays b0 v tr e v' os u c : ureach b0 v tr -> tev_ok e -> tsrv_enabled v e = true -> tsrv_step v e = Some (v', os) ->
  conn_at v u = Some c -> t_st c <> UInit ->
  begins u (e, os) = false /\
  (existsb (is_ufree u) os = false -> exists c', conn_at v' u = Some c' /\ t_st c' <> UInit) /\
  (target e <> Some u -> conn_at v' u = Some c /\ Forall (fun o => ~ uabout u o \/ o = UThrow) os).
Proof.
  intros R Ok En S Ec Hn. pose proof (reach_inv _ _ _ R) as I. destruct (step_inv _ _ _ _ _ I Ok En S) as [I' T].
  assert (G : conn_at v' u = Some c /\ Forall (fun o => ~ uabout u o \/ o = UThrow) os -> begins u (e, os) = false /\
    (existsb (is_ufree u) os = false -> exists c', conn_at v' u = Some c' /\ t_st c' <> UInit) /\
    (target e <> Some u -> conn_at v' u = Some c /\ Forall (fun o => ~ uabout u o \/ o = UThrow) os)).
  { intros [A B]. split; [now apply same_begins|]. split; [eauto|auto]. }
  pose proof (conn_at_inv _ _ _ Ec) as [Hu Ec'].
  destruct T as [e t k c1 c2 v' os Et Ht Ec1 Ec2 HT HQ Ek Ek'|b1 b2 tok v' os Hb -> ->|tok v' os Hl ->|t v' os Hl Ht Hnl ->|t v' os Hl Ht Hnl ->].
  - destruct (Z.eq_dec u t) as [->|Ne].
    + rewrite Ec' in Ec1. injection Ec1 as <-. split; [destruct e; try discriminate Et; reflexivity|]. split; [|congruence]. intros F. exists c2. rewrite conn_at_of by auto. split; [auto|].
      intros X. pose proof (uq_free _ _ _ _ HQ) as Q. rewrite X in Q. pose proof (ust_spec (t_st c)) as Y. destruct (ust_eqb (t_st c) UInit); [contradiction|]. cbn [ust_eqb andb negb] in Q.
      assert (Z : In (UFree t) (filter is_ufree_any os)) by (rewrite Q; now left). apply filter_In in Z as [Z _].
      assert (W : existsb (is_ufree t) os = true) by (apply existsb_exists; exists (UFree t); split; [exact Z|apply Z.eqb_refl]). congruence.
    + apply G. split; [|exact (other_about t u os (uq_about _ _ _ _ HQ) Ne)]. rewrite conn_at_of by auto. rewrite <- Ec'.
      assert (K : exists k, tsrv_on v t k = Some (v', os)).
      { destruct e as [? ? ?|? ? ?|?|?|? ? ?|?]; cbn [target] in Et; try discriminate; injection Et as Et; cbn [tsrv_step] in S; try rewrite Et in S; eauto. }
      destruct K as (k' & K). eapply on_other; [exact I|exact I'|exact Ht|exact K|exact Hu|exact Ne].
  - apply G. split; [exact Ec|]. constructor; [now right|constructor].
  - apply G. exact (accept_same _ _ _ _ _ _ _ _ I I' S Ec Hn).
  - apply G. exact (accept_same _ _ _ _ _ _ _ _ I I' S Ec Hn).
  - apply G. exact (accept_same _ _ _ _ _ _ _ _ I I' S Ec Hn).
Qed.

(** ** What dispatching one event of a batch comes to *)
Inductive next (h : host) (aok tok : bool) (early : list Z) : hent -> list hent -> host -> hout -> Prop :=
| nx_skip hd rest (drop : bool) : (drop = true -> exists t c, hd = NTimer t /\ conn_at (h_srv h) t = Some c /\ t_timer c = None) -> (hd <> NAccept) ->
    (forall t c a, hd = NTimer t -> conn_at (h_srv h) t = Some c -> t_timer c = Some (Some a) -> n_tick (h_sk h t) = KRun) ->
    next h aok tok early hd rest (mkH (h_srv h) (h_sk h) (h_wait h) (if drop then [] else rest)) (mkHo [] None (if drop then rest else []))
| nx_give hd rest e v os f n rd : tsrv_step (h_srv h) e = Some (v, os) -> tev_ok e -> tsrv_enabled (h_srv h) e = true ->
    match hd with
    | NAccept => e = EvAccept (Nat.ltb (links_used (h_srv h)) linkMax) aok tok
    | NData t => exists r w, e = EvData t r w
    | NError t => e = EvError t
    | NTimer t => e = EvTimer t
    | NMsg _ => False
    end ->
    (forall x, begins x (e, os) = false -> exists g, f x = fold_left k_eff os g x /\ (n_edge (g x) = true -> n_edge (h_sk h x) = true) /\
       (n_tick (g x) = n_tick (h_sk h x) \/ hd = NTimer x) /\ (target e <> Some x -> g x = h_sk h x)) ->
    (forall x y, os = [UArm x y] -> hd = NAccept -> f x = mkK early false (match early with [] => false | _ => true end) KRun) ->
    n = h_wait h \/ (hd = NAccept /\ n = pred (h_wait h)) ->
    next h aok tok early hd rest (mkH v f n (if existsb is_uthrow os then [] else rest)) (mkHo [(e, os)] rd (if existsb is_uthrow os then rest else []))
| nx_msgs ms rest h1 tr1 : give_msgs h ms = Some (h1, tr1) ->
    next h aok tok early (NMsg ms) rest (mkH (h_srv h1) (h_sk h1) (h_wait h1) rest) (mkHo tr1 None []).

Lemma next_inv b0 h tr aok tok early rerr w h' o : HInv b0 h tr -> h_step h (HNext aok tok early rerr w) = Some (h', o) ->
  exists hd rest, h_batch h = hd :: rest /\ next h aok tok early hd rest h' o.
Proof.
  intros I S. cbn [h_step] in S. destruct (h_batch h) as [|hd rest] eqn:Hb; [discriminate|]. exists hd, rest. split; [reflexivity|].
  destruct hd as [|t|t|t|ms].
  - unfold h_accept in S. cbv zeta in S. set (lok := Nat.ltb (links_used (h_srv h)) linkMax) in S. destruct (give h (EvAccept lok aok tok) rest None) as [[h1 o1]|] eqn:G; [|discriminate].
    apply give_struct in G as (v & os & St & -> & ->). cbn [h_srv h_sk h_batch h_wait o_seen] in S. injection S as <- <-.
    apply nx_give; [exact St|exact Logic.I|reflexivity|reflexivity| | |].
    + intros x Hx. exists (h_sk h).
      assert (E : (match os with [UArm y _] => kset (fold_left k_eff os (h_sk h)) y (mkK early false (match early with [] => false | _ :: _ => true end) KRun) | _ => fold_left k_eff os (h_sk h) end) x = fold_left k_eff os (h_sk h) x).
      { destruct os as [|y [|]]; auto; destruct y; auto. apply kset_ne. unfold begins in Hx. cbn [fst snd existsb is_uarm orb] in Hx. rewrite orb_false_r in Hx. apply Z.eqb_neq in Hx. congruence. }
      rewrite E. auto.
    + intros x y -> _. apply kset_eq.
    + destruct (lok && aok); auto.
  - unfold h_data in S. destruct (conn_at (h_srv h) t) as [c|] eqn:Et.
    2:{ injection S as <- <-. apply (nx_skip h aok tok early (NData t) rest false); discriminate. }
    assert (G : t_link c = Some true ->
        (if 1024 <? Z.of_nat (k_head (t_rx c)) then give h (EvData t RxNa w) rest None
         else let n := (length (k_pkt (t_rx c)) - k_head (t_rx c))%nat in let r := k_read (h_sk h t) n rerr in
              let k := match r with RxBytes bs => n_took (h_sk h t) (length bs) | _ => h_sk h t end in
              give (mkH (h_srv h) (kset (h_sk h) t k) (h_wait h) (h_batch h)) (EvData t r w) rest (Some (t, n, r))) = Some (h', o) ->
        next h aok tok early (NData t) rest h' o).
    { intros Hl E. destruct (Z.ltb_spec 1024 (Z.of_nat (k_head (t_rx c)))) as [H1|H1].
      - apply give_struct in E as (v & os & St & -> & ->). apply nx_give; [exact St|exact Logic.I|exact (proj1 (enabled_data _ _ _ _ _ Et Hl))|eauto| | |auto].
        + intros x _. exists (h_sk h). auto.
        + discriminate.
      - cbv zeta in E. apply give_struct in E as (v & os & St & -> & ->). cbn [h_srv h_sk h_wait] in *. pose proof (hi_bytes _ _ _ I t) as Bt.
        apply nx_give; [exact St| |exact (proj1 (enabled_data _ _ _ _ _ Et Hl))|eauto| | |auto].
        + unfold k_read. destruct rerr; [exact Logic.I|]. destruct (n_in (h_sk h t)) as [|z l] eqn:En; [destruct (n_end (h_sk h t)); [constructor|exact Logic.I]|]. cbn [tev_ok]. now apply firstn_bytes'.
        + intros x _. eexists. split; [reflexivity|]. unfold kset. cbn [target]. destruct (Z.eqb_spec x t) as [->|Ne].
          * destruct (k_read _ _ _); cbn [n_took n_edge n_tick]; (split; [auto|split; [auto|congruence]]).
          * auto.
        + discriminate. }
    destruct (t_st c) eqn:Est.
    + injection S as <- <-. apply (nx_skip h aok tok early (NData t) rest false); discriminate.
    + destruct (t_link c) as [[]|] eqn:El; try discriminate. now apply G.
    + destruct (t_link c) as [[]|] eqn:El; try discriminate. now apply G.
  - unfold h_error in S.
    assert (Sk : next h aok tok early (NError t) rest (mkH (h_srv h) (h_sk h) (h_wait h) rest) quiet) by (apply (nx_skip h aok tok early (NError t) rest false); discriminate).
    destruct (conn_at (h_srv h) t) as [c|] eqn:Et; [|injection S as <- <-; exact Sk].
    assert (G : t_link c = Some true -> give (mkH (h_srv h) (kset (h_sk h) t (mkK [] false false (n_tick (h_sk h t)))) (h_wait h) (h_batch h)) (EvError t) rest None = Some (h', o) -> next h aok tok early (NError t) rest h' o).
    { intros Hl E. apply give_struct in E as (v & os & St & -> & ->). cbn [h_srv h_sk h_wait] in *. destruct (enabled_data (h_srv h) t c RxNa w Et Hl) as [_ En].
      apply nx_give; [exact St|exact Logic.I|exact En|reflexivity| |discriminate|auto].
      intros x _. eexists. split; [reflexivity|]. unfold kset. cbn [target]. destruct (Z.eqb_spec x t) as [->|Ne]; [cbn [n_edge n_tick]; split; [discriminate|split; [auto|congruence]]|auto]. }
    destruct (t_st c); [injection S as <- <-; exact Sk| |]; (destruct (t_link c) as [[]|] eqn:El; [now apply G|injection S as <- <-; exact Sk|injection S as <- <-; exact Sk]).
  - unfold h_timer in S.
    assert (Sk : (forall c a, conn_at (h_srv h) t = Some c -> t_timer c = Some (Some a) -> n_tick (h_sk h t) = KRun) -> next h aok tok early (NTimer t) rest (mkH (h_srv h) (h_sk h) (h_wait h) rest) quiet).
    { intros X. apply (nx_skip h aok tok early (NTimer t) rest false); [discriminate|discriminate|]. intros x d y Ex. injection Ex as <-. apply X. }
    destruct (conn_at (h_srv h) t) as [c|] eqn:Et; [|injection S as <- <-; apply Sk; discriminate].
    destruct (t_timer c) as [a|] eqn:Ett.
    2:{ injection S as <- <-. apply (nx_skip h aok tok early (NTimer t) rest true); [|discriminate|]. { intros _. eauto. } intros x d y Ex Ed Ey. injection Ex as <-. congruence. }
    destruct a as [x|]; [|injection S as <- <-; apply Sk; intros d y Ed; injection Ed as <-; congruence].
    destruct (n_tick (h_sk h t)) eqn:Ek; [injection S as <- <-; apply Sk; reflexivity| |].
    all: apply give_struct in S as (v & os & St & -> & ->); cbn [h_srv h_sk h_wait] in *.
    all: apply nx_give; [exact St|exact Logic.I|exact (enabled_timer _ _ _ _ Et Ett)|auto| |discriminate|auto].
    all: intros y _; eexists; (split; [reflexivity|]); unfold kset; cbn [target]; destruct (Z.eqb_spec y t) as [->|Ne]; [cbn [n_set n_edge n_tick]; split; [auto|split; [auto|congruence]]|auto].
  - destruct (give_msgs h ms) as [[h1 t1]|] eqn:G; [|discriminate]. injection S as <- <-. now apply nx_msgs.
Qed.

(** ** Octets nobody will read *)
Definition stuck (h : host) (u : Z) : Prop :=
  (exists c, conn_at (h_srv h) u = Some c /\ t_st c <> UInit) /\ n_edge (h_sk h u) = false /\ ~ In (NData u) (h_batch h).

Lemma report_false es : forall f u, n_edge (f u) = false -> n_edge (fold_left k_report es f u) = false.
Proof.
  induction es as [|e es IH]; intros f u H; [exact H|]. cbn [fold_left]. apply IH. destruct e; cbn [k_report]; auto; unfold kset; destruct (Z.eqb_spec u u0); subst; auto.
Qed.
Lemma report_tick es : forall f u, n_tick (fold_left k_report es f u) = n_tick (f u) \/ (In (NTimer u) es /\ n_tick (fold_left k_report es f u) = KOver).
Proof.
  induction es as [|e es IH]; intros f u; [now left|]. cbn [fold_left]. destruct (IH (k_report f e) u) as [A|[A B]]; [|right; split; [now right|exact B]]. rewrite A.
  destruct e; cbn [k_report]; auto; unfold kset; destruct (Z.eqb_spec u u0); subst; auto. right. split; [now left|reflexivity].
Qed.

Lemma msgs_step e ms h h' tr' : give_msgs h (e :: ms) = Some (h', tr') -> exists v os tr1, tsrv_step (h_srv h) e = Some (v, os) /\ tr' = (e, os) :: tr1 /\
  give_msgs (mkH v (fold_left k_eff os (h_sk h)) (h_wait h) (h_batch h)) ms = Some (h', tr1).
Proof.
  cbn [give_msgs]. destruct (tsrv_step (h_srv h) e) as [[v os]|]; [|discriminate]. destruct (give_msgs _ ms) as [[h1 t1]|] eqn:E; [|discriminate].
  intros X. injection X as <- <-. exists v, os, t1. auto.
Qed.
Lemma msg_enabled v e : is_msg e = true -> tsrv_enabled v e = true.
Proof. destruct e; cbn; try discriminate; auto. Qed.

Lemma msgs_stay b0 u ms : forall h h' tr' T c, Forall tev_ok ms -> forallb is_msg ms = true -> give_msgs h ms = Some (h', tr') -> ureach b0 (h_srv h) T ->
  conn_at (h_srv h) u = Some c -> t_st c <> UInit -> existsb (frees u) tr' = false ->
  (exists c', conn_at (h_srv h') u = Some c' /\ t_st c' <> UInit) /\ n_edge (h_sk h' u) = n_edge (h_sk h u) /\ existsb (serves u) tr' = false.
Proof.
  induction ms as [|e ms IH]; intros h h' tr' T c Ok M G R Ec Hst F.
  - injection G as <- <-. eauto.
  - apply msgs_step in G as (v & os & tr1 & S & -> & G). inversion Ok as [|? ? O1 O2]; subst. cbn [forallb] in M. apply andb_prop in M as [M1 M2].
    cbn [existsb] in F. apply orb_false_elim in F as [F1 F2]. pose proof (msg_enabled (h_srv h) e M1) as En. destruct (step_stays b0 _ _ e v os u c R O1 En S Ec Hst) as (A1 & A2 & A3).
    destruct (A2 F1) as (c1 & E1 & E2).
    destruct (IH _ _ _ (T ++ [(e, os)]) c1 O2 M2 G) as (B1 & B2 & B3); [eapply ur_step; eauto|exact E1|exact E2|exact F2|].
    split; [exact B1|]. cbn [h_sk] in B2. rewrite B2. split; [exact (proj1 (proj2 (keff_self u os F1 (h_sk h))))|]. cbn [existsb]. rewrite B3. destruct e; try discriminate M1; reflexivity.
Qed.

Lemma stuck_step b0 h tr e h' o u : HInv b0 h tr -> hev_ok e -> h_step h e = Some (h', o) -> stuck h u -> from_peer u e = false -> existsb (frees u) (o_seen o) = false ->
  stuck h' u /\ existsb (serves u) (o_seen o) = false.
Proof.
  intros I Ok S [(c & Ec & Hst) [He Hb]] Hp Hf. unfold stuck. destruct e as [|t bs|t|t|es|aok tok early rerr w].
  - cbn [h_step] in S. injection S as <- <-. eauto 6.
  - cbn [h_step] in S. destruct (is_open (h_srv h) t); [|discriminate]. injection S as <- <-. cbn [h_srv h_sk h_batch quiet o_seen]. cbn [from_peer] in Hp. apply Z.eqb_neq in Hp. rewrite kset_ne by congruence. eauto 6.
  - cbn [h_step] in S. destruct (is_open (h_srv h) t); [|discriminate]. injection S as <- <-. cbn [h_srv h_sk h_batch quiet o_seen]. cbn [from_peer] in Hp. apply Z.eqb_neq in Hp. rewrite kset_ne by congruence. eauto 6.
  - cbn [h_step] in S. destruct (is_armed (h_srv h) t); [|discriminate]. destruct (n_tick (h_sk h t)) eqn:Ek; try discriminate. injection S as <- <-. cbn [h_srv h_sk h_batch quiet o_seen].
    split; [|reflexivity]. split; [eauto|]. split; [|exact Hb]. unfold kset. destruct (Z.eqb_spec u t) as [->|]; [exact He|exact He].
  - cbn [h_step] in S. destruct (h_batch h); [|discriminate]. destruct (may_return h es) eqn:M; [|discriminate]. injection S as <- <-. cbn [h_srv h_sk h_batch quiet o_seen].
    split; [|reflexivity]. split; [eauto|]. split; [now apply report_false|]. intros X. unfold may_return in M. apply andb_prop in M as [M _]. apply andb_prop in M as [M _]. apply andb_prop in M as [_ M].
    rewrite forallb_forall in M. specialize (M _ X). cbn [ready] in M. rewrite He in M. discriminate.
  - destruct (next_inv b0 h tr aok tok early rerr w h' o I S) as (hd & rest & Eb & N). rewrite Eb in Hb. cbn [In] in Hb.
    assert (Hr : ~ In (NData u) rest) by tauto. assert (Hif : forall b : bool, ~ In (NData u) (if b then [] else rest)) by (intros []; [intros []|exact Hr]).
    destruct N as [hd rest drop D1 D2 D3|hd rest e v os f n rd St Ok' En Sh Fx Fb Wn|ms rest h1 tr1 G]; cbn [h_srv h_sk h_batch o_seen] in *.
    + split; [|reflexivity]. split; [eauto|]. auto.
    + destruct (step_stays b0 _ _ e v os u c (hi_reach _ _ _ I) Ok' En St Ec Hst) as (A1 & A2 & A3). cbn [existsb] in Hf. rewrite orb_false_r in Hf. unfold frees in Hf. cbn [snd] in Hf. destruct (A2 Hf) as (c' & E1 & E2).
      split.
      * split; [eauto|]. split; [|auto]. destruct (Fx u A1) as (g & -> & G1 & G2). destruct (keff_self u os Hf g) as (_ & -> & _). destruct (n_edge (g u)); [rewrite G1 in He by auto; discriminate|reflexivity].
      * cbn [existsb]. rewrite orb_false_r. unfold serves. cbn [fst]. destruct hd as [|t|t|t|ms]; try contradiction Sh.
        -- now subst e.
        -- destruct Sh as (? & ? & ->). apply Z.eqb_neq. intros ->. apply Hb. now left.
        -- now subst e.
        -- now subst e.
    + assert (Mok : entry_ok (NMsg ms)) by (pose proof (hi_batch _ _ _ I) as X; rewrite Eb in X; now inversion X). destruct Mok as [M1 M2].
      destruct (msgs_stay b0 u ms h h1 tr1 (served tr) c M1 M2 G (hi_reach _ _ _ I) Ec Hst Hf) as (B1 & B2 & B3). split; [|exact B3]. split; [exact B1|]. split; [congruence|exact Hr].
Qed.

(** ** Connections nothing will be done about *)
Definition forgotten (h : host) (u : Z) (c : tconn) : Prop :=
  conn_at (h_srv h) u = Some c /\ t_st c <> UInit /\ n_edge (h_sk h u) = false /\ n_tick (h_sk h u) = KOver /\ Forall (fun x => concerns u x = false) (h_batch h).

Lemma to_target u e : is_msg e = true -> to_conn u e = false -> target e <> Some u.
Proof. destruct e; cbn; try discriminate; intros _ H X; injection X as X; rewrite X, Z.eqb_refl in H; discriminate. Qed.
Lemma same_free u os : Forall (fun o => ~ uabout u o \/ o = UThrow) os -> existsb (is_ufree u) os = false.
Proof.
  intros H. apply not_true_is_false. intros X. apply existsb_exists in X as (o & Hi & Ho). rewrite Forall_forall in H. specialize (H o Hi).
  destruct o; try discriminate. apply Z.eqb_eq in Ho. cbn in H. destruct H as [H|H]; [congruence|discriminate].
Qed.
Definition mute (u : Z) (x : tev * list uout) : Prop := target (fst x) <> Some u /\ Forall (fun o => ~ uabout u o \/ o = UThrow) (snd x).

Lemma msgs_mute b0 u ms : forall h h' tr' T c, Forall tev_ok ms -> forallb is_msg ms = true -> give_msgs h ms = Some (h', tr') -> ureach b0 (h_srv h) T ->
  conn_at (h_srv h) u = Some c -> t_st c <> UInit -> existsb (to_conn u) ms = false ->
  conn_at (h_srv h') u = Some c /\ h_sk h' u = h_sk h u /\ Forall (mute u) tr'.
Proof.
  induction ms as [|e ms IH]; intros h h' tr' T c Ok M G R Ec Hst F.
  - injection G as <- <-. auto.
  - apply msgs_step in G as (v & os & tr1 & S & -> & G). inversion Ok as [|? ? O1 O2]; subst. cbn [forallb] in M. apply andb_prop in M as [M1 M2].
    cbn [existsb] in F. apply orb_false_elim in F as [F1 F2]. pose proof (msg_enabled (h_srv h) e M1) as En. destruct (step_stays b0 _ _ e v os u c R O1 En S Ec Hst) as (A1 & A2 & A3).
    destruct (A3 (to_target u e M1 F1)) as [E1 E2].
    destruct (IH _ _ _ (T ++ [(e, os)]) c O2 M2 G) as (B1 & B2 & B3); [eapply ur_step; eauto|exact E1|exact Hst|exact F2|].
    split; [exact B1|]. cbn [h_sk] in B2. rewrite B2. split; [now apply keff_other|]. constructor; [split; [exact (to_target u e M1 F1)|exact E2]|exact B3].
Qed.

Lemma forgotten_step b0 h tr e h' o u c : HInv b0 h tr -> hev_ok e -> h_step h e = Some (h', o) -> forgotten h u c -> disturbs u e = false ->
  forgotten h' u c /\ Forall (mute u) (o_seen o).
Proof.
  intros I Ok S (Ec & Hst & He & Ht & Hb) Hp. unfold forgotten. destruct e as [|t bs|t|t|es|aok tok early rerr w].
  - cbn [h_step] in S. injection S as <- <-. split; [|constructor]. auto.
  - cbn [h_step] in S. destruct (is_open (h_srv h) t); [|discriminate]. injection S as <- <-. cbn [h_srv h_sk h_batch quiet o_seen]. cbn [disturbs] in Hp. apply Z.eqb_neq in Hp. rewrite kset_ne by congruence. split; [|constructor]. auto.
  - cbn [h_step] in S. destruct (is_open (h_srv h) t); [|discriminate]. injection S as <- <-. cbn [h_srv h_sk h_batch quiet o_seen]. cbn [disturbs] in Hp. apply Z.eqb_neq in Hp. rewrite kset_ne by congruence. split; [|constructor]. auto.
  - cbn [h_step] in S. destruct (is_armed (h_srv h) t); [|discriminate]. destruct (n_tick (h_sk h t)) eqn:Ek; try discriminate. injection S as <- <-. cbn [h_srv h_sk h_batch quiet o_seen].
    split; [|constructor]. assert (Ne : u <> t) by (intros ->; congruence). rewrite kset_ne by exact Ne. auto.
  - cbn [h_step] in S. destruct (h_batch h); [|discriminate]. destruct (may_return h es) eqn:M; [|discriminate]. injection S as <- <-. cbn [h_srv h_sk h_batch quiet o_seen].
    split; [|constructor]. unfold may_return in M. apply andb_prop in M as [M _]. apply andb_prop in M as [M _]. apply andb_prop in M as [_ M]. rewrite forallb_forall in M.
    assert (Nt : ~ In (NTimer u) es) by (intros X; specialize (M _ X); cbn [ready] in M; rewrite Ht in M; discriminate).
    split; [exact Ec|]. split; [exact Hst|]. split; [now apply report_false|]. split; [destruct (report_tick es (h_sk h) u) as [->|[X _]]; [exact Ht|contradiction]|].
    apply Forall_forall. intros x Hx. specialize (M x Hx). cbn [disturbs] in Hp.
    assert (D : forall y, In y es -> (match y with NError t => t =? u | NMsg ms => existsb (to_conn u) ms | _ => false end) = false).
    { intros y Hy. apply not_true_is_false. intros X. assert (W : existsb (fun x => match x with NError t => t =? u | NMsg ms => existsb (to_conn u) ms | _ => false end) es = true) by (apply existsb_exists; eauto). congruence. }
    specialize (D x Hx). destruct x as [|t|t|t|ms]; cbn [concerns]; auto.
    + cbn [ready] in M. apply Z.eqb_neq. intros ->. rewrite He in M. discriminate.
    + apply Z.eqb_neq. intros ->. contradiction.
  - destruct (next_inv b0 h tr aok tok early rerr w h' o I S) as (hd & rest & Eb & N). rewrite Eb in Hb. inversion Hb as [|? ? Hh Hr]; subst.
    assert (Hif : forall b : bool, Forall (fun x => concerns u x = false) (if b then [] else rest)) by (intros []; [constructor|exact Hr]).
    destruct N as [hd rest drop D1 D2 D3|hd rest e v os f n rd St Ok' En Sh Fx Fb Wn|ms rest h1 tr1 G]; cbn [h_srv h_sk h_batch o_seen] in *.
    + split; [|constructor]. auto 6.
    + destruct (step_stays b0 _ _ e v os u c (hi_reach _ _ _ I) Ok' En St Ec Hst) as (A1 & A2 & A3).
      assert (Nt : target e <> Some u).
      { destruct hd as [|t|t|t|ms]; cbn [concerns] in Hh; try contradiction Sh.
        - subst e. discriminate.
        - destruct Sh as (? & ? & ->). apply Z.eqb_neq in Hh. cbn. congruence.
        - subst e. apply Z.eqb_neq in Hh. cbn. congruence.
        - subst e. apply Z.eqb_neq in Hh. cbn. congruence. }
      destruct (A3 Nt) as [E1 E2]. destruct (Fx u A1) as (g & Ef & _ & _ & Eg). rewrite Ef, (keff_other u os E2 g), (Eg Nt).
      split; [|constructor; [split; [exact Nt|exact E2]|constructor]]. auto 6.
    + assert (Mok : entry_ok (NMsg ms)) by (pose proof (hi_batch _ _ _ I) as X; rewrite Eb in X; now inversion X). destruct Mok as [M1 M2].
      destruct (msgs_mute b0 u ms h h1 tr1 (served tr) c M1 M2 G (hi_reach _ _ _ I) Ec Hst Hh) as (B1 & B2 & B3). rewrite B2. auto 7.
Qed.

(** ** Expiries *)
Lemma keff_tick u os : forall f, n_tick (fold_left k_eff os f u) <> KRun -> n_tick (f u) = n_tick (fold_left k_eff os f u) /\ existsb (is_uarm u) os = false.
Proof.
  induction os as [|o os IH]; intros f H; [auto|]. cbn [fold_left existsb] in *. destruct (IH _ H) as [A B]. rewrite B, orb_false_r. rewrite <- A. rewrite <- A in H.
  destruct o; cbn [k_eff is_uarm] in *; auto; unfold kset in *; destruct (Z.eqb_spec u uid) as [->|Ne]; cbn [n_set n_tick ksock0] in *; try congruence; auto.
  split; [reflexivity|]. apply Z.eqb_neq. congruence.
Qed.

Definition tick_ok (h : host) (tr : htrace) : Prop :=
  forall u c, conn_at (h_srv h) u = Some c -> t_st c <> UInit -> n_tick (h_sk h u) = KOver -> In (NTimer u) (h_batch h) \/ tlost u tr = true.

Lemma tlost_snoc u tr x : tlost u (tr ++ [x]) = tlost_next u (tlost u tr) x.
Proof. unfold tlost. now rewrite fold_left_app. Qed.
Lemma lost_timer u l : In (NTimer u) l -> existsb (about_timer u) l = true.
Proof. intros H. apply existsb_exists. exists (NTimer u). split; [exact H|]. cbn. apply Z.eqb_refl. Qed.

Lemma msgs_tick b0 u ms : forall h h' tr' T c', Forall tev_ok ms -> forallb is_msg ms = true -> give_msgs h ms = Some (h', tr') -> ureach b0 (h_srv h) T ->
  conn_at (h_srv h') u = Some c' -> t_st c' <> UInit -> n_tick (h_sk h' u) = KOver ->
  (exists c, conn_at (h_srv h) u = Some c /\ t_st c <> UInit) /\ n_tick (h_sk h u) = KOver /\ existsb (restarts u) tr' = false.
Proof.
  induction ms as [|e ms IH]; intros h h' tr' T c' Ok M G R Ec Hst Ht.
  - injection G as <- <-. eauto.
  - apply msgs_step in G as (v & os & tr1 & S & -> & G). inversion Ok as [|? ? O1 O2]; subst. cbn [forallb] in M. apply andb_prop in M as [M1 M2].
    pose proof (msg_enabled (h_srv h) e M1) as En.
    destruct (IH _ _ _ (T ++ [(e, os)]) c' O2 M2 G) as ((c1 & E1 & E2) & B2 & B3); [eapply ur_step; eauto|exact Ec|exact Hst|exact Ht|]. cbn [h_srv h_sk] in *.
    destruct (keff_tick u os (h_sk h) ltac:(congruence)) as [A1 A2]. split; [|split; [congruence|cbn [existsb]; unfold restarts at 1; cbn [snd]; now rewrite A2, B3]].
    destruct (step_kept b0 _ _ e v os u c1 R O1 En S E1 E2) as [K1 K2 K3|c0 K1 K2 K3 K4 K5 K6|K1 K2 K3 K4]; [eauto|eauto|]. subst e. discriminate M1.
Qed.

Lemma tick_step b0 h tr e h' o : HInv b0 h tr -> tick_ok h tr -> hev_ok e -> h_step h e = Some (h', o) -> tick_ok h' (tr ++ [(e, o)]).
Proof.
  intros I K Ok S u c' Ec Hst Ht. rewrite tlost_snoc. unfold tlost_next. cbn [snd].
  assert (Q : forall a b d f, h' = mkH (h_srv h) a b d -> o = quiet -> n_tick (h_sk h u) = n_tick (f u) -> n_tick (f u) = KOver -> (In (NTimer u) (h_batch h) -> In (NTimer u) d) ->
    In (NTimer u) (h_batch h') \/ (if existsb (restarts u) (o_seen o) then existsb (about_timer u) (o_lost o) else tlost u tr || existsb (about_timer u) (o_lost o)) = true).
  { intros a b d f -> -> Hk Hk2 Hd. cbn [h_srv h_batch] in *. cbn [quiet o_seen o_lost existsb]. rewrite orb_false_r. destruct (K u c' Ec Hst ltac:(congruence)); auto. }
  destruct e as [|t bs|t|t|es|aok tok early rerr w].
  - cbn [h_step] in S. injection S as <- <-. apply (Q _ _ _ (h_sk h) eq_refl); auto.
  - cbn [h_step] in S. destruct (is_open (h_srv h) t); [|discriminate]. injection S as <- <-. cbn [h_sk] in Ht. eapply Q; [reflexivity|reflexivity| |exact Ht|auto].
    unfold kset. destruct (Z.eqb_spec u t); subst; reflexivity.
  - cbn [h_step] in S. destruct (is_open (h_srv h) t); [|discriminate]. injection S as <- <-. cbn [h_sk] in Ht. eapply Q; [reflexivity|reflexivity| |exact Ht|auto].
    unfold kset. destruct (Z.eqb_spec u t); subst; reflexivity.
  - cbn [h_step] in S. destruct (is_armed (h_srv h) t); [|discriminate]. destruct (n_tick (h_sk h t)) eqn:Ek; try discriminate. injection S as <- <-. cbn [h_sk] in Ht. eapply Q; [reflexivity|reflexivity| |exact Ht|auto].
    unfold kset in *. destruct (Z.eqb_spec u t); subst; [discriminate Ht|reflexivity].
  - cbn [h_step] in S. destruct (h_batch h) eqn:Hb; [|discriminate]. destruct (may_return h es) eqn:M; [|discriminate]. injection S as <- <-. cbn [h_srv h_sk h_batch quiet o_seen o_lost existsb] in *. rewrite orb_false_r.
    destruct (report_tick es (h_sk h) u) as [E|[X _]]; [|now left]. rewrite E in Ht. destruct (K u c' Ec Hst Ht) as [X|X]; [rewrite Hb in X; destruct X|now right].
  - destruct (next_inv b0 h tr aok tok early rerr w h' o I S) as (hd & rest & Eb & N).
    destruct N as [hd rest drop D1 D2 D3|hd rest e v os f n rd St Ok' En Sh Fx Fb Wn|ms rest h1 tr1 G]; cbn [h_srv h_sk h_batch o_seen o_lost] in *.
    + cbn [existsb]. destruct (K u c' Ec Hst Ht) as [X|X]; [|rewrite X; auto]. rewrite Eb in X. destruct X as [X|X].
      * exfalso. subst hd. pose proof (conn_at_inv _ _ _ Ec) as [Hu Ec']. destruct (conn_inv _ _ u (reach_inv _ _ _ (hi_reach _ _ _ I)) Hu) as (d & Ed & HT & _). rewrite Ec' in Ed. injection Ed as <-.
        assert (Ha : exists a, t_timer c' = Some (Some a)) by (pose proof (to_st _ _ _ HT) as X; destruct (t_st c'); [congruence|destruct X as (_ & X & _); eauto|destruct X as (_ & X & _); eauto]).
        destruct Ha as (a & Ha). rewrite (D3 u c' a eq_refl Ec Ha) in Ht. discriminate.
      * destruct drop; [right; rewrite (lost_timer u rest X); apply orb_true_r|now left].
    + destruct (step_kept b0 _ _ e v os u c' (hi_reach _ _ _ I) Ok' En St Ec Hst) as [K1 K2 K3|c0 K1 K2 K3 K4 K5 K6|K1 K2 K3 K4].
      * destruct (Fx u (same_begins u e os K3)) as (g & Ef & _ & _ & Eg). rewrite Ef in Ht. destruct (keff_tick u os g ltac:(congruence)) as [A1 A2]. rewrite (Eg K1) in A1.
        cbn [existsb]. rewrite orb_false_r. unfold restarts. cbn [snd]. rewrite A2. destruct (K u c' K2 Hst ltac:(congruence)) as [X|X]; [|rewrite X; auto].
        rewrite Eb in X. destruct X as [X|X].
        -- exfalso. subst hd. apply K1. now subst e.
        -- destruct (existsb is_uthrow os); [right; rewrite (lost_timer u rest X); apply orb_true_r|now left].
      * assert (Bg : begins u (e, os) = false) by (destruct e; try reflexivity; contradiction).
        destruct (Fx u Bg) as (g & Ef & _ & Eg & _). rewrite Ef in Ht. destruct (keff_tick u os g ltac:(congruence)) as [A1 A2].
        assert (Nh : hd <> NTimer u) by (intros ->; subst e; exact K6). destruct Eg as [Eg|Eg]; [|contradiction].
        cbn [existsb]. rewrite orb_false_r. unfold restarts. cbn [snd]. rewrite A2. destruct (K u c0 K2 K3 ltac:(congruence)) as [X|X]; [|rewrite X; auto].
        rewrite Eb in X. destruct X as [X|X]; [congruence|]. destruct (existsb is_uthrow os); [right; rewrite (lost_timer u rest X); apply orb_true_r|now left].
      * exfalso. assert (Eh : hd = NAccept) by (destruct hd as [|t|t|t|ms]; [reflexivity|destruct Sh as (? & ? & Sh); congruence|congruence|congruence|contradiction]).
        rewrite (Fb u 30000000 K2 Eh) in Ht. discriminate.
    + assert (Mok : entry_ok (NMsg ms)) by (pose proof (hi_batch _ _ _ I) as X; rewrite Eb in X; now inversion X). destruct Mok as [M1 M2].
      destruct (msgs_tick b0 u ms h h1 tr1 (served tr) c' M1 M2 G (hi_reach _ _ _ I) Ec Hst Ht) as ((c & E1 & E2) & B2 & B3). rewrite B3. cbn [existsb]. rewrite orb_false_r.
      destruct (K u c E1 E2 B2) as [X|X]; [|rewrite X; auto]. rewrite Eb in X. destruct X as [X|X]; [discriminate|auto].
Qed.

Lemma reach_tick b0 h tr : hreach b0 h tr -> tick_ok h tr.
Proof.
  induction 1 as [v Hm Hn|h tr e h' o R IH Ok S].
  - intros u c Ec Hst H. discriminate H.
  - exact (tick_step b0 h tr e h' o (hreach_inv _ _ _ R) IH Ok S).
Qed.

(** ** Runs *)
Lemma hrun_reach b0 h tr' h' : hrun h tr' h' -> forall tr, hreach b0 h tr -> hreach b0 h' (tr ++ tr').
Proof.
  induction 1 as [h|h e o h1 tr' h2 Ok S R IH]; intros tr Hr; [now rewrite app_nil_r|]. change ((e, o) :: tr') with ([(e, o)] ++ tr'). rewrite app_assoc. apply IH. eapply hr_step; eauto.
Qed.
Lemma served_cons e o tr : served ((e, o) :: tr) = o_seen o ++ served tr.
Proof. reflexivity. Qed.
Lemma existsb_false {A} (p : A -> bool) l : (forall x, In x l -> p x = false) <-> existsb p l = false.
Proof.
  split; intros H.
  - apply not_true_is_false. intros X. apply existsb_exists in X as (x & Hi & Hx). rewrite (H x Hi) in Hx. discriminate.
  - intros x Hi. apply not_true_is_false. intros X. assert (Y : existsb p l = true) by (apply existsb_exists; eauto). congruence.
Qed.

Lemma stuck_run b0 u h tr' h' : hrun h tr' h' -> forall tr, hreach b0 h tr -> stuck h u -> no_event (from_peer u) tr' -> no_effect (frees u) tr' ->
  stuck h' u /\ no_effect (serves u) tr'.
Proof.
  induction 1 as [h|h e o h1 tr' h2 Ok S R IH]; intros tr Hr Hs Hp Hf; [split; [exact Hs|intros x []]|].
  destruct (stuck_step b0 h tr e h1 o u (hreach_inv _ _ _ Hr) Ok S Hs) as [A B].
  - exact (Hp (e, o) (or_introl eq_refl)).
  - apply existsb_false. intros x Hx. apply Hf. rewrite served_cons. apply in_or_app. now left.
  - destruct (IH (tr ++ [(e, o)])) as [C D].
    + eapply hr_step; eauto.
    + exact A.
    + intros x Hx. apply Hp. now right.
    + intros x Hx. apply Hf. rewrite served_cons. apply in_or_app. now right.
    + split; [exact C|]. intros x Hx. rewrite served_cons in Hx. apply in_app_or in Hx as [Hx|Hx]; [|now apply D]. exact (proj2 (existsb_false _ _) B x Hx).
Qed.

Lemma forgotten_run b0 u c h tr' h' : hrun h tr' h' -> forall tr, hreach b0 h tr -> forgotten h u c -> no_event (disturbs u) tr' ->
  forgotten h' u c /\ Forall (mute u) (served tr').
Proof.
  induction 1 as [h|h e o h1 tr' h2 Ok S R IH]; intros tr Hr Hs Hp; [split; [exact Hs|constructor]|].
  destruct (forgotten_step b0 h tr e h1 o u c (hreach_inv _ _ _ Hr) Ok S Hs) as [A B].
  - exact (Hp (e, o) (or_introl eq_refl)).
  - destruct (IH (tr ++ [(e, o)])) as [C D].
    + eapply hr_step; eauto.
    + exact A.
    + intros x Hx. apply Hp. now right.
    + split; [exact C|]. rewrite served_cons. apply Forall_app. auto.
Qed.

(** ** Links *)
Lemma serving_link b0 v tr u c : ureach b0 v tr -> conn_at v u = Some c -> t_st c <> UInit -> exists fd, t_link c = Some fd.
Proof.
  intros R Ec Hst. apply conn_at_inv in Ec as [Hu Ec]. destruct (conn_inv _ _ u (reach_inv _ _ _ R) Hu) as (d & Ed & HT & _). rewrite Ec in Ed. injection Ed as <-.
  pose proof (to_st _ _ _ HT) as X. destruct (t_st c); [congruence|tauto|tauto].
Qed.
Lemma conn_len b0 v tr : ureach b0 v tr -> length (d_conn v) = 32%nat.
Proof. intros R. exact (own_len _ _ _ _ _ _ (ti_own _ _ (reach_inv _ _ _ R))). Qed.
Lemma conn_nth b0 v tr i c : ureach b0 v tr -> nth_error (d_conn v) i = Some c -> conn_at v (Z.of_nat i + 1) = Some c.
Proof.
  intros R E. assert (Hi : (i < 32)%nat) by (rewrite <- (conn_len _ _ _ R); apply nth_error_Some; congruence).
  rewrite conn_at_of by lia. destruct (conn_inv _ _ (Z.of_nat i + 1) (reach_inv _ _ _ R) ltac:(lia)) as (d & Ed & _ & En & _).
  replace (Z.to_nat (Z.of_nat i + 1 - 1)) with i in En by lia. congruence.
Qed.
Lemma nlive_links b0 v tr : ureach b0 v tr -> (nlive (d_conn v) <= links_used v <= 32)%nat.
Proof.
  intros R. split.
  - unfold links_used, nact. set (l := d_conn v). assert (X : forall c, In c l -> uact c = true -> holds_link c = true).
    { intros c Hi Ha. apply In_nth_error in Hi as (i & Hi). pose proof (conn_nth _ _ _ _ _ R Hi) as Ec. pose proof (uact_spec c) as Y. rewrite Ha in Y.
      destruct (serving_link _ _ _ _ _ R Ec Y) as (fd & E). unfold holds_link. now rewrite E. }
    clearbody l. clear - X. induction l as [|c l IH]; [apply le_n|].
    assert (IH' := IH (fun c Hi => X c (or_intror Hi))). pose proof (X c (or_introl eq_refl)) as Xc. cbn [filter].
    destruct (uact c); destruct (holds_link c); cbn in *; try lia.
  - rewrite <- (conn_len _ _ _ R). unfold links_used. induction (d_conn v) as [|c l IH]; [apply le_n|]. cbn [filter length]. destruct (holds_link c); cbn [length]; lia.
Qed.

(** ** Why events are dropped *)
Theorem lost_cause b0 h tr e h' o : hreach b0 h tr -> h_step h e = Some (h', o) -> o_lost o <> [] ->
  exists aok tok early rerr w hd, e = HNext aok tok early rerr w /\ h_batch h = hd :: o_lost o /\
  match hd with
  | NAccept => links_used (h_srv h) = 32%nat \/ aok = false \/ tok = false
  | NData t => ulive t (served tr) /\ ~ uacked t (served tr)
  | NTimer t => ~ ulive t (served tr)
  | _ => False
  end.
Proof.
  intros R S L. pose proof (hreach_inv _ _ _ R) as I. pose proof (hi_reach _ _ _ I) as UR. destruct e as [|t bs|t|t|es|aok tok early rerr w]; cbn [h_step] in S.
  1: injection S as <- <-; now destruct L.
  1: destruct (is_open (h_srv h) t); [|discriminate]; injection S as <- <-; now destruct L.
  1: destruct (is_open (h_srv h) t); [|discriminate]; injection S as <- <-; now destruct L.
  1: destruct (is_armed (h_srv h) t); [|discriminate]; destruct (n_tick (h_sk h t)); try discriminate; injection S as <- <-; now destruct L.
  1: destruct (h_batch h); [|discriminate]; destruct (may_return h es); [|discriminate]; injection S as <- <-; now destruct L.
  exists aok, tok, early, rerr, w. destruct (next_inv b0 h tr aok tok early rerr w h' o I S) as (hd & rest & Eb & N). exists hd. split; [reflexivity|].
  destruct N as [hd rest drop D1 D2 D3|hd rest e v os f n rd St Ok' En Sh Fx Fb Wn|ms rest h1 tr1 G]; cbn [o_lost] in *.
  - destruct drop; [|now destruct L]. split; [exact Eb|]. destruct (D1 eq_refl) as (t & c & -> & Ec & Et). intros X.
    apply conn_at_inv in Ec as [Hu Ec]. destruct (conn_inv _ _ t (reach_inv _ _ _ UR) Hu) as (d & Ed & HT & _). rewrite Ec in Ed. injection Ed as <-.
    apply (live_iff _ _ _ HT) in X. pose proof (to_st _ _ _ HT) as Y. destruct (t_st c); [congruence|destruct Y as (_ & Y & _); congruence|destruct Y as (_ & Y & _); congruence].
  - destruct (existsb is_uthrow os) eqn:Et; [|now destruct L]. split; [exact Eb|]. clear L Fx Fb Wn.
    destruct (step_cases b0 _ _ e v os UR Ok' En St) as [(uid & c & Hu & Ec & HT & Hc)|(b1 & b2 & b3 & Ee & Hc)].
    + assert (Dc : forall ch, existsb is_uthrow (closing uid ch) = false) by (intros [ch|]; reflexivity).
      destruct hd as [|t|t|t|ms]; try contradiction Sh.
      * subst e. contradiction.
      * destruct Sh as (r & w' & ->). destruct Hc as [-> [(_ & ->)|[(Est & Hc)|(_ & Hc)]]]; [discriminate Et| |].
        -- split; [apply (live_iff _ _ _ HT); congruence|]. intros X. apply (acked_st _ _ _ HT) in X. congruence.
        -- exfalso. destruct Hc as [->|[->|(k & ch & ck & len & d & -> & _)]]; [discriminate Et|rewrite Dc in Et; discriminate|discriminate Et].
      * subst e. destruct Hc as [_ ->]. discriminate Et.
      * subst e. destruct Hc as (_ & _ & ->). rewrite Dc in Et. discriminate.
    + assert (Eh : hd = NAccept) by (destruct hd as [|t|t|t|ms]; [reflexivity|destruct Sh as (? & ? & Sh); congruence|congruence|congruence|contradiction]). subst hd. rewrite Sh in Ee. injection Ee as E1 E2 E3.
      destruct Hc as [(Hb & _)|[(_ & _ & _ & ->)|(_ & _ & _ & uid & _ & _ & Ho)]].
      * rewrite <- E1, <- E2 in Hb. apply andb_false_iff in Hb as [Hb|Hb]; [left|auto]. apply Nat.ltb_ge in Hb. unfold linkMax in Hb. pose proof (nlive_links _ _ _ UR). lia.
      * discriminate Et.
      * rewrite <- E3 in Ho. destruct tok; [subst os; discriminate Et|auto].
  - now destruct L.
Qed.

(** ** Accepting *)
Lemma full_accept h rest aok tok early rerr w : h_batch h = NAccept :: rest -> links_used (h_srv h) = 32%nat ->
  h_step h (HNext aok tok early rerr w) = Some (mkH (h_srv h) (h_sk h) (h_wait h) [], mkHo [(EvAccept false aok tok, [UThrow])] None rest).
Proof. intros Hb Hl. cbn [h_step]. rewrite Hb. unfold h_accept, give. rewrite Hl. reflexivity. Qed.

Theorem accepted b0 h tr rest early rerr w : hreach b0 h tr -> h_batch h = NAccept :: rest -> (links_used (h_srv h) < 32)%nat -> utotal unotimer (served tr) = 0%nat ->
  exists h' u, h_step h (HNext true true early rerr w) = Some (h', mkHo [(EvAccept true true true, [UArm u 30000000])] None []) /\
    1 <= u <= 32 /\ ~ ulive u (served tr) /\ h_wait h' = pred (h_wait h) /\ h_batch h' = rest.
Proof.
  intros R Hb Hl Hn. pose proof (hi_reach _ _ _ (hreach_inv _ _ _ R)) as UR. pose proof (nlive_links _ _ _ UR) as [N _].
  destruct (accept_total b0 _ _ true UR) as (v & os & St & Hc).
  assert (T : (utotal ustarts (served tr) - utotal ufrees (served tr) = nlive (d_conn (h_srv h)))%nat) by (pose proof (ti_tot _ _ (reach_inv _ _ _ UR)); lia).
  destruct Hc as [(Hc & _)|(_ & u & Hu & Hnl & ->)]; [lia|].
  assert (L : Nat.ltb (links_used (h_srv h)) linkMax = true) by (apply Nat.ltb_lt; exact Hl).
  cbn [h_step]. rewrite Hb. unfold h_accept, give. rewrite L, St. cbn [existsb is_uthrow orb o_seen h_srv h_sk h_wait h_batch andb].
  eexists _, u. split; [reflexivity|]. cbn [h_wait h_batch]. auto.
Qed.

(** The server's links are all taken by connections nothing will be done about. *)
Lemma all_links b0 v tr : ureach b0 v tr -> (forall u, 1 <= u <= 32 -> exists c, conn_at v u = Some c /\ t_st c <> UInit) -> links_used v = 32%nat.
Proof.
  intros R H. rewrite <- (conn_len _ _ _ R). unfold links_used. f_equal.
  assert (X : forall c, In c (d_conn v) -> holds_link c = true).
  { intros c Hi. apply In_nth_error in Hi as (i & Hi). assert (Hl : (i < 32)%nat) by (rewrite <- (conn_len _ _ _ R); apply nth_error_Some; congruence).
    destruct (H (Z.of_nat i + 1) ltac:(lia)) as (d & Ed & Hd). rewrite (conn_nth _ _ _ _ _ R Hi) in Ed. injection Ed as <-.
    destruct (serving_link _ _ _ _ _ R (conn_nth _ _ _ _ _ R Hi) Hd) as (fd & E). unfold holds_link. now rewrite E. }
  clear R H. induction (d_conn v) as [|c l IH]; [reflexivity|]. cbn [filter]. rewrite (X c (or_introl eq_refl)). f_equal. apply IH. intros d Hd. apply X. now right.
Qed.

Lemma hopeless_run b0 h tr' h' : hrun h tr' h' -> forall tr, hreach b0 h tr -> (forall u, 1 <= u <= 32 -> exists c, forgotten h u c) ->
  (forall u, 1 <= u <= 32 -> no_event (disturbs u) tr') ->
  Forall (fun x => exists aok tok, x = (EvAccept false aok tok, [UThrow])) (served tr').
Proof.
  induction 1 as [h|h e o h1 tr' h2 Ok S R IH]; intros tr Hr Hs Hp; [constructor|].
  pose proof (hreach_inv _ _ _ Hr) as I. pose proof (hi_reach _ _ _ I) as UR.
  assert (St : forall u, 1 <= u <= 32 -> (exists c, forgotten h1 u c) /\ Forall (mute u) (o_seen o)).
  { intros u Hu. destruct (Hs u Hu) as (c & F). destruct (forgotten_step b0 h tr e h1 o u c I Ok S F (Hp u Hu (e, o) (or_introl eq_refl))) as [A B]. eauto. }
  rewrite served_cons. apply Forall_app. split.
  2:{ apply (IH (tr ++ [(e, o)])); [eapply hr_step; eauto|intros u Hu; apply St, Hu|]. intros u Hu x Hx. apply (Hp u Hu). now right. }
  assert (F : links_used (h_srv h) = 32%nat) by (apply (all_links _ _ _ UR); intros u Hu; destruct (Hs u Hu) as (c & A & B & _); eauto).
  destruct e as [|t bs|t|t|es|aok tok early rerr w].
  1: cbn [h_step] in S; injection S as <- <-; constructor.
  1: cbn [h_step] in S; destruct (is_open (h_srv h) t); [|discriminate]; injection S as <- <-; constructor.
  1: cbn [h_step] in S; destruct (is_open (h_srv h) t); [|discriminate]; injection S as <- <-; constructor.
  1: cbn [h_step] in S; destruct (is_armed (h_srv h) t); [|discriminate]; destruct (n_tick (h_sk h t)); try discriminate; injection S as <- <-; constructor.
  1: cbn [h_step] in S; destruct (h_batch h); [|discriminate]; destruct (may_return h es); [|discriminate]; injection S as <- <-; constructor.
  destruct (next_inv b0 h tr aok tok early rerr w h1 o I S) as (hd & rest & Eb & N).
  assert (Nm : forall x, In x (o_seen o) -> forall u, 1 <= u <= 32 -> target (fst x) <> Some u).
  { intros x Hx u Hu. destruct (St u Hu) as [_ M]. rewrite Forall_forall in M. exact (proj1 (M x Hx)). }
  destruct N as [hd rest drop D1 D2 D3|hd rest e v os f n rd St' Ok' En Sh Fx Fb Wn|ms rest h1 tr1 G]; cbn [o_seen] in *.
  - constructor.
  - destruct hd as [|t|t|t|ms]; try contradiction Sh.
    + subst e. rewrite F in St'. cbn in St'. injection St' as <- <-. constructor; [|constructor]. rewrite F. eauto.
    + destruct Sh as (r & w' & ->). cbn [tsrv_enabled] in En. exfalso. apply (Nm _ (or_introl eq_refl) t); [|reflexivity]. apply andb_prop in En as [En _]. lia.
    + subst e. cbn [tsrv_enabled] in En. exfalso. apply (Nm _ (or_introl eq_refl) t); [|reflexivity]. apply andb_prop in En as [En _]. lia.
    + subst e. cbn [tsrv_enabled] in En. exfalso. apply (Nm _ (or_introl eq_refl) t); [|reflexivity]. apply andb_prop in En as [En _]. lia.
  - assert (Mok : entry_ok (NMsg ms)) by (pose proof (hi_batch _ _ _ I) as X; rewrite Eb in X; now inversion X). destruct Mok as [M1 M2].
    assert (Z : tr1 = []).
    { destruct ms as [|e ms]; [now injection G|]. exfalso. apply msgs_step in G as (v & os & tr2 & S1 & -> & _). inversion M1 as [|? ? O1 O2]; subst. cbn [forallb] in M2. apply andb_prop in M2 as [M2 _].
      destruct (step_cases b0 _ _ e v os UR O1 (msg_enabled _ _ M2) S1) as [(uid & c & Hu & Ec & HT & Hc)|(b1 & b2 & b3 & -> & _)]; [|discriminate M2].
      apply (Nm _ (or_introl eq_refl) uid Hu). destruct e; try discriminate M2; destruct Hc as [X _]; cbn [fst target]; congruence. }
    subst tr1. constructor.
Qed.

(** ** Computing runs *)
Fixpoint hgo (h : host) (es : list hev) : option (host * htrace) :=
  match es with
  | [] => Some (h, [])
  | e :: r => match h_step h e with
              | None => None
              | Some (h1, o) => match hgo h1 r with None => None | Some (h2, tr) => Some (h2, (e, o) :: tr) end
              end
  end.
Definition hev_okb (e : hev) : bool :=
  match e with
  | HArrive _ bs => octetsb bs
  | HWait es => forallb (fun x => match x with NMsg ms => forallb tev_okb ms | _ => true end) es
  | HNext _ _ early _ _ => octetsb early
  | _ => true
  end.
Lemma hev_okb_ok e : hev_okb e = true -> hev_ok e.
Proof.
  destruct e; cbn; auto using octetsb_ok. intros H. rewrite forallb_forall in H. apply Forall_forall. intros x Hx. specialize (H x Hx). destruct x; cbn; auto. now apply tev_okb_ok.
Qed.
Lemma hgo_run es : forall h h' tr, forallb hev_okb es = true -> hgo h es = Some (h', tr) -> hrun h tr h'.
Proof.
  induction es as [|e es IH]; intros h h' tr Ok H; cbn [hgo forallb] in *.
  - injection H as <- <-. constructor.
  - apply andb_prop in Ok as [O1 O2]. destruct (h_step h e) as [[h1 o]|] eqn:S; [|discriminate]. destruct (hgo h1 es) as [[h2 t2]|] eqn:G; [|discriminate]. injection H as <- <-.
    econstructor; [now apply hev_okb_ok|exact S|]. now apply IH.
Qed.
Definition hstart (o : option tserver) (es : list hev) : option (host * htrace) := match o with None => None | Some v => hgo (h_new v) es end.
Lemma hstart_reach b0 o es h tr : umem_ok b0 -> forallb hev_okb es = true -> tsrv_new maxConn b0 = o -> hstart o es = Some (h, tr) -> hreach b0 h tr.
Proof.
  intros Hm Ok E H. destruct o as [v|]; [|discriminate H]. cbn [hstart] in H.
  exact (hrun_reach b0 (h_new v) tr h (hgo_run es _ _ _ Ok H) [] (hr_new b0 v Hm E)).
Qed.
