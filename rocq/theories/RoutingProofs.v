From Verif Require Import Base QueueModel MsgStorageModel ReactorModel RoutingModel RoutingSpec.
Local Open Scope Z_scope.

(** Specification: the reactor of the first registration under [cid]. *)
Definition first_registered (l : list (Z * nat)) (cid : Z) : option nat :=
  option_map snd (find (fun x => fst x =? cid) l).

Lemma add_components_spec l : forall m cid,
  fold_left (fun m '(c, r) => add_component m c r) l m cid =
  match m cid with Some r => Some r | None => first_registered l cid end.
Proof.
  induction l as [|[c r] l IH]; intros m cid; cbn [fold_left].
  - destruct (m cid); reflexivity.
  - rewrite IH. unfold add_component, first_registered. cbn [find fst].
    destruct (Z.eqb_spec c cid) as [->|Hne].
    + destruct (m cid) eqn:E.
      * now rewrite E.
      * rewrite Z.eqb_refl. reflexivity.
    + destruct (m c) eqn:E; [reflexivity|].
      destruct (Z.eqb_spec cid c); [congruence|]. reflexivity.
Qed.

Lemma routing l cid :
  m_send (fold_left (fun m '(c, r) => add_component m c r) l m_empty) cid =
  match first_registered l cid with Some r => [r] | None => [] end.
Proof.
  unfold m_send. rewrite add_components_spec. unfold m_empty. reflexivity.
Qed.

Lemma lost_iff : forall k, In k (registered compController) ->
  (handled_by depCpu3 k = Some compController <->
   ~ In k [uaSecureChannelInitRsp; uaSecureChannelConfigRsp; uaSecureChannelReleaseRsp;
           uaServiceInitRsp; uaServiceConfigRsp; uaServiceReleaseRsp]).
Proof.
  intros k Hk. cbn in Hk. cbn [In].
  repeat (destruct Hk as [<-|Hk];
    [vm_compute; split; intros; [intuition discriminate|first [reflexivity|exfalso; intuition]]|]).
  contradiction.
Qed.

Lemma cpu3_handled : forall k, In k (registered (msg_dst k)) -> is_built (msg_dst k) = true ->
  handled_by depCpu3 k = Some (msg_dst k).
Proof.
  intros k. destruct k; vm_compute; intros; intuition discriminate.
Qed.

(** Arbitrary placements. *)
Definition takes (c : comp) (k : msgkind) : bool :=
  is_built c && (if in_dec Z.eq_dec (msg_id k) (map msg_id (registered c)) then true else false).

Lemma build_one h c k : build_handlers h c (msg_id k) = if takes c k then Some c else h (msg_id k).
Proof. destruct c; destruct k; vm_compute; reflexivity. Qed.

Definition taker (k : msgkind) : option comp :=
  if unwanted k then None else Some (receiver k).

Lemma takes_taker c k : takes c k = match taker k with Some d => if comp_eq_dec c d then true else false | None => false end.
Proof. destruct c; destruct k; vm_compute; reflexivity. Qed.

Lemma build_all l : forall h k, fold_left build_handlers l h (msg_id k) =
  match taker k with Some d => if in_dec comp_eq_dec d l then Some d else h (msg_id k) | None => h (msg_id k) end.
Proof.
  induction l as [|c l IH]; intros h k; cbn [fold_left].
  - destruct (taker k) as [d|]; [|reflexivity]. destruct (in_dec comp_eq_dec d []) as [[]|]; reflexivity.
  - rewrite IH, build_one, takes_taker. destruct (taker k) as [d|]; [|reflexivity].
    destruct (in_dec comp_eq_dec d l) as [Hi|Hn]; destruct (in_dec comp_eq_dec d (c :: l)) as [Hj|Hm];
      destruct (comp_eq_dec c d) as [->|Hcd]; try reflexivity; exfalso; cbn [In] in *; tauto.
Qed.

Lemma comp_id_inj c d : comp_id c = comp_id d -> c = d.
Proof. destruct c, d; cbn; intros; congruence. Qed.

Lemma build_mgr r l : forall m c, is_built c = true -> fold_left (build_manager r) l m (comp_id c) =
  match m (comp_id c) with Some x => Some x | None => if in_dec comp_eq_dec c l then Some r else None end.
Proof.
  induction l as [|d l IH]; intros m c Hb; cbn [fold_left].
  - destruct (m (comp_id c)); [reflexivity|]. destruct (in_dec comp_eq_dec c []) as [[]|]; reflexivity.
  - rewrite (IH _ c Hb). unfold build_manager, add_component.
    destruct (comp_eq_dec d c) as [->|Hne].
    + rewrite Hb. destruct (m (comp_id c)) eqn:E; [now rewrite E|]. rewrite Z.eqb_refl.
      destruct (in_dec comp_eq_dec c (c :: l)) as [|Hn]; [reflexivity|]. exfalso; apply Hn; now left.
    + assert (Hm : (if is_built d then match m (comp_id d) with Some _ => m | None => fun x => if x =? comp_id d then Some r else m x end else m)
                    (comp_id c) = m (comp_id c)).
      { destruct (is_built d); [|reflexivity]. destruct (m (comp_id d)); [reflexivity|].
        destruct (Z.eqb_spec (comp_id c) (comp_id d)) as [E|E]; [|reflexivity]. apply comp_id_inj in E; congruence. }
      rewrite Hm. destruct (m (comp_id c)); [reflexivity|].
      destruct (in_dec comp_eq_dec c l) as [Hi|Hn]; destruct (in_dec comp_eq_dec c (d :: l)) as [Hj|Hk]; try reflexivity;
        exfalso; cbn [In] in *; intuition congruence.
Qed.

Lemma apply_mgr cs : forall r m hs c, is_built c = true ->
  fst (apply_depl r m hs cs) (comp_id c) =
  match m (comp_id c) with Some x => Some x | None => option_map (fun i => (r + i)%nat) (home cs c) end.
Proof.
  induction cs as [|l cs IH]; intros r m hs c Hb; cbn [apply_depl fst home].
  - now destruct (m (comp_id c)).
  - rewrite (IH _ _ _ c Hb), (build_mgr r l m c Hb). destruct (m (comp_id c)); [reflexivity|].
    destruct (in_dec comp_eq_dec c l); cbn [option_map]; [f_equal; lia|].
    destruct (home cs c); cbn [option_map]; [f_equal; lia|reflexivity].
Qed.

Lemma apply_mgr_unbuilt cs : forall r m hs c, is_built c = false -> m (comp_id c) = None ->
  fst (apply_depl r m hs cs) (comp_id c) = None.
Proof.
  assert (B : forall r l m c, is_built c = false -> fold_left (build_manager r) l m (comp_id c) = m (comp_id c)).
  { intros r l. induction l as [|d l IH]; intros m c Hb; cbn [fold_left]; [reflexivity|]. rewrite (IH _ c Hb).
    unfold build_manager, add_component. destruct (is_built d) eqn:Ed; [|reflexivity]. destruct (m (comp_id d)); [reflexivity|].
    destruct (Z.eqb_spec (comp_id c) (comp_id d)) as [E|E]; [|reflexivity]. apply comp_id_inj in E; congruence. }
  induction cs as [|l cs IH]; intros r m hs c Hb Hm; cbn [apply_depl fst]; [exact Hm|].
  apply IH; [exact Hb|]. rewrite B; assumption.
Qed.

Lemma apply_hs cs : forall r m hs,
  snd (apply_depl r m hs cs) = hs ++ map (fun l => fold_left build_handlers l (h_empty (H:=comp))) cs.
Proof.
  induction cs as [|l cs IH]; intros r m hs; cbn [apply_depl snd map]; [now rewrite app_nil_r|].
  rewrite IH, <- app_assoc. reflexivity.
Qed.

(** Who handles a message under any placement of components on reactors. *)
Lemma handled_in_spec cs k :
  handled_in cs k =
  if is_built (msg_dst k) then
    match home cs (msg_dst k) with
    | Some r => match nth_error cs r, taker k with
                | Some l, Some d => if in_dec comp_eq_dec d l then Some d else None
                | _, _ => None
                end
    | None => None
    end
  else None.
Proof.
  unfold handled_in, deployed_as. pose proof (apply_mgr cs 0 m_empty [] (msg_dst k)) as M.
  pose proof (apply_mgr_unbuilt cs 0 m_empty [] (msg_dst k)) as U. pose proof (apply_hs cs 0 m_empty []) as Hh.
  destruct (apply_depl 0 m_empty [] cs) as [m hs]. cbn [fst snd app] in *. unfold m_send.
  destruct (is_built (msg_dst k)).
  - rewrite (M eq_refl). change (m_empty (comp_id (msg_dst k))) with (@None nat). cbn [Nat.add].
    destruct (home cs (msg_dst k)) as [r|]; [|reflexivity]. cbn [option_map Nat.add]. rewrite Hh, nth_error_map.
    destruct (nth_error cs r) as [l|]; [|reflexivity]. cbn [option_map]. rewrite build_all. destruct (taker k); [|reflexivity].
    now destruct (in_dec comp_eq_dec c l).
  - rewrite (U eq_refl eq_refl). reflexivity.
Qed.

Lemma home_some cs c : In c (concat cs) -> exists r l, home cs c = Some r /\ nth_error cs r = Some l /\ In c l.
Proof.
  induction cs as [|l cs IH]; cbn [concat home]; intros H; [contradiction|].
  destruct (in_dec comp_eq_dec c l) as [Hi|Hn]; [exists 0%nat, l; auto|].
  apply in_app_or in H. destruct H as [H|H]; [contradiction|]. destruct (IH H) as (r & l' & -> & Hr & Hc). exists (S r), l'. auto.
Qed.

Lemma placed_handled cs k : unwanted k = false -> lifecycle_reply k = false -> In (receiver k) (concat cs) ->
  handled_in cs k = Some (receiver k).
Proof.
  intros Hu Hl Hin. rewrite handled_in_spec. unfold taker. rewrite Hu.
  assert (D : is_built (msg_dst k) = true /\ msg_dst k = receiver k) by (destruct k; cbn in *; split; congruence).
  destruct D as [-> ->]. destruct (home_some cs _ Hin) as (r & l & -> & -> & Hc).
  destruct (in_dec comp_eq_dec (receiver k) l); [reflexivity|contradiction].
Qed.

Lemma replies_need cs k : lifecycle_reply k = true ->
  handled_in cs k = Some compController <-> together cs compUaSecChannel compController.
Proof.
  intros Hl. rewrite handled_in_spec.
  assert (D : is_built (msg_dst k) = true /\ msg_dst k = compUaSecChannel /\ taker k = Some compController)
    by (destruct k; cbn in *; repeat split; congruence).
  destruct D as (-> & -> & ->). unfold together. split.
  - destruct (home cs compUaSecChannel) as [r|]; [|discriminate]. destruct (nth_error cs r) as [l|] eqn:E; [|discriminate].
    destruct (in_dec comp_eq_dec compController l); [|discriminate]. intros _. exists r, l. auto.
  - intros (r & l & -> & -> & Hi). destruct (in_dec comp_eq_dec compController l); [reflexivity|contradiction].
Qed.

Lemma unwanted_lost cs k : unwanted k = true -> handled_in cs k = None.
Proof.
  intros Hu. rewrite handled_in_spec. unfold taker. rewrite Hu.
  destruct (is_built (msg_dst k)); [|reflexivity]. destruct (home cs (msg_dst k)); [|reflexivity]. now destruct (nth_error cs n).
Qed.

Lemma reaches_only_receiver cs k c : handled_in cs k = Some c -> c = receiver k.
Proof.
  rewrite handled_in_spec. unfold taker. destruct (is_built (msg_dst k)); [|discriminate].
  destruct (home cs (msg_dst k)) as [r|]; [|discriminate]. destruct (nth_error cs r); [|discriminate].
  destruct (unwanted k); [discriminate|]. destruct (in_dec comp_eq_dec (receiver k) l); congruence.
Qed.
