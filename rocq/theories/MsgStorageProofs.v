From Verif Require Import Base QueueModel QueueSpec QueueRun QueueProofs MsgStorageModel MsgStorageSpec PoolProofs.
Local Open Scope Z_scope.

Lemma read_bytes_length m a n : length (read_bytes m a n) = n.
Proof. unfold read_bytes. now rewrite map_length, seq_length. Qed.

Lemma read_write_same m a bs : read_bytes (write_bytes m a bs) a (length bs) = bs.
Proof.
  apply nth_error_ext. intros i. unfold read_bytes.
  rewrite nth_error_map. destruct (Nat.ltb_spec i (length bs)) as [Hi|Hi].
  - rewrite (nth_error_nth' (seq 0 (length bs)) 0%nat) by now rewrite seq_length.
    rewrite seq_nth by auto. cbn [option_map].
    unfold write_bytes.
    destruct (Z.leb_spec a (a + Z.of_nat (0 + i))); [|lia].
    destruct (Z.ltb_spec (a + Z.of_nat (0 + i)) (a + Z.of_nat (length bs))); [|lia].
    cbn [andb]. replace (Z.to_nat (a + Z.of_nat (0 + i) - a)) with i by lia.
    rewrite (nth_error_nth' bs 0); auto.
  - rewrite (proj2 (nth_error_None (seq 0 (length bs)) i)) by (rewrite seq_length; lia).
    cbn. symmetry. apply nth_error_None. lia.
Qed.

Lemma read_bytes_ext m m' a n :
  (forall x, a <= x < a + Z.of_nat n -> m x = m' x) -> read_bytes m a n = read_bytes m' a n.
Proof.
  intros H. unfold read_bytes. apply map_ext_in. intros i Hi. apply in_seq in Hi. apply H. lia.
Qed.

Lemma write_bytes_out m a bs x : ~ (a <= x < a + Z.of_nat (length bs)) -> write_bytes m a bs x = m x.
Proof.
  intros H. unfold write_bytes.
  destruct (Z.leb_spec a x); destruct (Z.ltb_spec x (a + Z.of_nat (length bs))); cbn; auto; lia.
Qed.

(** Slot [id] of the memory holds the message [d]. *)
Definition slot_holds (m : memory) (chunk : Z) (id : Z) (d : list Z) : Prop :=
  le_val (read_bytes m (chunk * id) 8) = Z.of_nat (length d) /\
  read_bytes m (chunk * id + 8) (length d) = d /\ 8 + Z.of_nat (length d) <= chunk.

Lemma slot_holds_write m chunk id d :
  8 + Z.of_nat (length d) <= chunk -> Z.of_nat (length d) < 18446744073709551616 ->
  slot_holds (write_bytes (write_bytes m (chunk * id) (le_bytes 8 (Z.of_nat (length d)))) (chunk * id + 8) d)
             chunk id d.
Proof.
  intros H Hs. repeat split; auto.
  - erewrite read_bytes_ext with (m' := write_bytes m (chunk * id) (le_bytes 8 (Z.of_nat (length d)))).
    + change 8%nat with (length (le_bytes 8 (Z.of_nat (length d)))) at 2.
      rewrite read_write_same, le_val_bytes. apply Z.mod_small. change (256 ^ Z.of_nat 8) with 18446744073709551616. lia.
    + intros x Hx. apply write_bytes_out. lia.
  - apply read_write_same.
Qed.

Lemma slot_holds_other m chunk id id' d bs a :
  slot_holds m chunk id d -> id <> id' ->
  chunk * id' <= a -> a + Z.of_nat (length bs) <= chunk * id' + chunk ->
  slot_holds (write_bytes m a bs) chunk id d.
Proof.
  intros (H1 & H2 & H3) Hne Ha Hb.
  assert (D : forall x, chunk * id <= x < chunk * id + chunk -> write_bytes m a bs x = m x).
  { intros x Hx. apply write_bytes_out. nia. }
  repeat split; auto.
  - rewrite <- H1. f_equal. apply read_bytes_ext. intros x Hx. apply D. lia.
  - rewrite <- H2 at 2. apply read_bytes_ext. intros x Hx. apply D. lia.
Qed.

Record SInv (chunk : Z) (num : nat) (slack : Z) (s : storage) (l : list (list Z)) : Prop := mkSInv {
  si_chunk : s_chunk s = chunk;
  si_num : s_num s = num;
  si_ext : s_ext s = chunk * Z.of_nat num + slack;
  si_fcap : q_cap (s_free s) = num;
  si_bcap : q_cap (s_busy s) = num;
  si_rep : exists free busy, Rq (s_free s) free /\ Rq (s_busy s) busy /\
      Permutation (free ++ busy) (zrange 0 num) /\
      Forall2 (slot_holds (s_mem s) chunk) busy l
}.

(** Configuration: sizes representable in the C++ types. *)
Definition st_cfg (chunk : Z) (num : nat) (slack : Z) : Prop :=
  8 <= chunk /\ (0 < num)%nat /\ Z.of_nat num <= 4294967296 /\
  chunk * Z.of_nat num + 15 < 18446744073709551616 /\ 0 <= slack <= 15.

Lemma cfg_size chunk num slack : st_cfg chunk num slack -> size_t_ok num.
Proof. intros (H1 & H2 & H3 & H4 & H5). unfold size_t_ok. lia. Qed.

Lemma st_fill_spec n : forall q l i, Rq q l -> (length l + n <= q_cap q)%nat ->
  0 <= i -> i + Z.of_nat n <= 4294967296 ->
  exists q', st_fill q i n = Some q' /\ Rq q' (l ++ zrange i n) /\ q_cap q' = q_cap q.
Proof.
  induction n; intros q l uid HR Hn Hi Hu; cbn [st_fill zrange].
  - rewrite app_nil_r. eauto.
  - destruct (Rq_push q l (u32 uid) HR) as (q1 & E & HR1 & Hc); [lia|].
    rewrite E.
    assert (Eu : u32 uid = uid) by (unfold u32; apply Z.mod_small; lia).
    destruct (IHn q1 (l ++ [u32 uid]) (uid + 1) HR1) as (q2 & E2 & HR2 & Hc2).
    { rewrite app_length; cbn; lia. } { lia. } { lia. }
    exists q2. rewrite <- app_assoc in HR2. cbn in HR2. rewrite Eu in HR2.
    split; [exact E2|split]; congruence.
Qed.

Lemma sinv_new chunk num slack m0 : st_cfg chunk num slack ->
  exists s, st_new chunk num slack m0 = Some s /\ SInv chunk num slack s [].
Proof.
  intros Hcfg. pose proof (cfg_size _ _ _ Hcfg) as Hs. destruct Hcfg as (H1 & H2 & H3 & H4 & H5).
  unfold st_new.
  destruct (st_fill_spec num (q_new num) [] 0 (Rq_new num H2 Hs)) as (q & E & HR & Hc); [cbn; lia|lia|lia|].
  rewrite E. cbn [option_map]. eexists; split; [reflexivity|].
  constructor; cbn; auto.
  exists (zrange 0 num), []. split; [exact HR|split; [now apply Rq_new|split; [now rewrite app_nil_r|constructor]]].
Qed.

Lemma forall2_length {A B} (P : A -> B -> Prop) l1 l2 : Forall2 P l1 l2 -> length l1 = length l2.
Proof. induction 1; cbn; auto. Qed.

Lemma sinv_len chunk num slack s l : SInv chunk num slack s l -> (length l <= num)%nat.
Proof.
  intros [_ _ _ _ _ (free & busy & _ & _ & Hp & Hf)].
  apply Permutation_length in Hp. rewrite app_length, zrange_length in Hp.
  apply forall2_length in Hf. lia.
Qed.

Lemma st_get_small chunk num slack s id : st_cfg chunk num slack -> s_chunk s = chunk ->
  0 <= id < Z.of_nat num -> st_get s id = chunk * id.
Proof.
  intros (H1 & H2 & H3 & H4 & H5) E Hid. unfold st_get, u64. rewrite E.
  apply Z.mod_small. nia.
Qed.

Lemma sinv_push chunk num slack s l d : st_cfg chunk num slack -> SInv chunk num slack s l ->
  8 + Z.of_nat (length d) <= chunk ->
  if (length l <? num)%nat
  then exists s', st_push s d = Some (s', true) /\ SInv chunk num slack s' (l ++ [d])
  else st_push s d = Some (s, false).
Proof.
  intros Hcfg [Ec En Ee Efc Ebc (free & busy & HRf & HRb & Hp & Hf)] Hd.
  pose proof (Permutation_length Hp) as Hlen. rewrite app_length, zrange_length in Hlen.
  pose proof (forall2_length _ _ _ Hf) as Hlb.
  unfold st_push. rewrite (Rq_empty _ _ HRf).
  destruct free as [|id free].
  - cbn in Hlen. destruct (Nat.ltb_spec (length l) num); [lia|reflexivity].
  - cbn in Hlen. destruct (Nat.ltb_spec (length l) num); [|lia].
    rewrite (Rq_front _ _ _ HRf).
    destruct (Rq_pop _ _ _ HRf) as (f' & E1 & HRf' & Hcf'). rewrite E1.
    destruct (Rq_push _ _ id HRb) as (b' & E2 & HRb' & Hcb'); [lia|]. rewrite E2.
    assert (Hid : 0 <= id < Z.of_nat num).
    { assert (I : In id (zrange 0 num)) by (eapply Permutation_in; [exact Hp|cbn; auto]).
      apply in_zrange in I. lia. }
    rewrite (st_get_small chunk num slack) by auto.
    destruct Hcfg as (H1 & H2 & H3 & H4 & H5).
    destruct (Z.leb_spec (chunk * id + 8 + Z.of_nat (length d)) (s_ext s)) as [Hle|Hgt]; [|rewrite Ee in Hgt; nia].
    eexists; split; [reflexivity|].
    constructor; cbn [s_chunk s_num s_ext s_free s_busy s_mem]; auto; try congruence.
    exists free, (busy ++ [id]). split; [auto|split; [auto|split]].
    + etransitivity; [|exact Hp]. cbn. rewrite app_assoc. symmetry.
      apply Permutation_cons_append.
    + apply Forall2_app.
      * assert (Hnin : ~ In id busy).
        { assert (ND : NoDup ((id :: free) ++ busy)) by (eapply Permutation_NoDup; [symmetry; exact Hp|apply zrange_nodup]).
          cbn in ND. inversion ND as [|? ? Hn _]; subst. intros I. apply Hn, in_or_app. auto. }
        assert (L8 : length (le_bytes 8 (Z.of_nat (length d))) = 8%nat) by apply le_bytes_length.
        clear - Hf Hnin Hd L8. induction Hf as [|i x bs xs Hix Hf IH]; constructor.
        -- eapply slot_holds_other with (id' := id); [|intros ->; apply Hnin; cbn; auto|lia|lia].
           eapply slot_holds_other with (id' := id); [exact Hix|intros ->; apply Hnin; cbn; auto|lia|rewrite L8; lia].
        -- apply IH. intros I; apply Hnin; cbn; auto.
      * constructor; [|constructor]. apply slot_holds_write; lia.
Qed.

Lemma sinv_pop chunk num slack s l dst : st_cfg chunk num slack -> SInv chunk num slack s l ->
  chunk - 8 <= dst ->
  match l with
  | [] => st_pop s dst = Some (s, None)
  | d :: r => exists s', st_pop s dst = Some (s', Some d) /\ SInv chunk num slack s' r
  end.
Proof.
  intros Hcfg [Ec En Ee Efc Ebc (free & busy & HRf & HRb & Hp & Hf)] Hdst.
  pose proof (Permutation_length Hp) as Hlen. rewrite app_length, zrange_length in Hlen.
  unfold st_pop. rewrite (Rq_empty _ _ HRb).
  inversion Hf as [|id d busy' r Hid Hf' E1 E2]; subst; [reflexivity|].
  rewrite (Rq_front _ _ _ HRb).
  destruct (Rq_pop _ _ _ HRb) as (b' & E1 & HRb' & Hcb'). rewrite E1. cbn in Hlen.
  destruct (Rq_push _ _ id HRf) as (f' & E2 & HRf' & Hcf'); [lia|]. rewrite E2.
  assert (Hidr : 0 <= id < Z.of_nat (s_num s)).
  { assert (I : In id (zrange 0 (s_num s))) by (eapply Permutation_in; [exact Hp|apply in_or_app; right; cbn; auto]).
    apply in_zrange in I. lia. }
  rewrite (st_get_small (s_chunk s) (s_num s) slack) by auto.
  destruct Hid as (HL & HD & HB). rewrite HL.
  destruct Hcfg as (H1 & H2 & H3 & H4 & H5).
  destruct (Z.leb_spec (s_chunk s * id + 8 + Z.of_nat (length d)) (s_ext s)) as [Hle|Hgt]; [|rewrite Ee in Hgt; nia].
  destruct (Z.leb_spec (Z.of_nat (length d)) dst); [|lia]. cbn [andb].
  rewrite Nat2Z.id, HD. eexists; split; [reflexivity|].
  constructor; cbn [s_chunk s_num s_ext s_free s_busy s_mem]; auto; try congruence.
  exists (free ++ [id]), busy'. split; [auto|split; [auto|split; [|auto]]].
  etransitivity; [|exact Hp]. rewrite <- app_assoc. reflexivity.
Qed.

Lemma st_step_refines chunk num slack s l o dst :
  st_cfg chunk num slack -> SInv chunk num slack s l -> chunk - 8 <= dst ->
  (forall d, o = SPush d -> Z.of_nat (length d) <= chunk - 8) ->
  exists s', st_step dst s o = Some (s', snd (sfifo_step num l o)) /\
             SInv chunk num slack s' (fst (sfifo_step num l o)).
Proof.
  intros Hcfg HI Hdst Ho. destruct o as [d|]; cbn [st_step sfifo_step].
  - specialize (Ho d eq_refl). pose proof (sinv_push _ _ _ _ _ d Hcfg HI ltac:(lia)) as P.
    destruct (length l <? num)%nat.
    + destruct P as (s' & E & HI'). rewrite E. cbn. eauto.
    + rewrite P. cbn. eauto.
  - pose proof (sinv_pop _ _ _ _ _ dst Hcfg HI Hdst) as P. destruct l as [|d r].
    + rewrite P. cbn. eauto.
    + destruct P as (s' & E & HI'). rewrite E. cbn. eauto.
Qed.

Lemma st_run_refines chunk num slack dst os : forall s l,
  st_cfg chunk num slack -> SInv chunk num slack s l -> chunk - 8 <= dst ->
  sizes_le (chunk - 8) os ->
  exists s', st_run dst s os = Some (s', snd (sfifo_run num l os)) /\
             SInv chunk num slack s' (fst (sfifo_run num l os)).
Proof.
  induction os as [|o os IH]; intros s l Hcfg HI Hdst Hsz; cbn [st_run sfifo_run].
  - eauto.
  - destruct (st_step_refines _ _ _ _ _ o dst Hcfg HI Hdst) as (s1 & E & HI1).
    { intros d ->. apply Hsz. cbn; auto. }
    rewrite E. destruct (sfifo_step num l o) as [l1 out]. cbn [fst snd] in *.
    destruct (IH s1 l1 Hcfg HI1 Hdst) as (s2 & E2 & HI2).
    { intros d Hd. apply Hsz. cbn; auto. }
    rewrite E2. destruct (sfifo_run num l1 os) as [l2 outs]. cbn [fst snd] in *. eauto.
Qed.

Lemma storage_fifo chunk num slack m0 dst os :
  st_cfg chunk num slack -> chunk - 8 <= dst -> sizes_le (chunk - 8) os ->
  exists s s', st_new chunk num slack m0 = Some s /\
    st_run dst s os = Some (s', snd (sfifo_run num [] os)).
Proof.
  intros Hcfg Hdst Hsz. destruct (sinv_new chunk num slack m0 Hcfg) as (s & E & HI).
  destruct (st_run_refines _ _ _ dst os s [] Hcfg HI Hdst Hsz) as (s' & E' & _). eauto.
Qed.

(** What a push writes, without any assumption on the message size. *)
Lemma push_footprint s data s' :
  st_push s data = Some (s', true) ->
  exists id, q_front (s_free s) = Some id /\
    (forall x, ~ (st_get s id <= x < st_get s id + 8 + Z.of_nat (length data)) -> s_mem s' x = s_mem s x) /\
    (forall i, (i < length data)%nat -> s_mem s' (st_get s id + 8 + Z.of_nat i) = nth i data 0).
Proof.
  unfold st_push. destruct (q_empty (s_free s)); [discriminate|].
  destruct (q_front (s_free s)) as [id|]; [|discriminate].
  destruct (q_pop (s_free s)); [|discriminate].
  destruct (q_push (s_busy s) id); [|discriminate].
  destruct (_ <=? _); [|discriminate]. intros H. injection H as <-. cbn [s_mem].
  exists id. split; [reflexivity|split].
  - intros x Hx. rewrite write_bytes_out by lia. apply write_bytes_out. cbn [length]. lia.
  - intros i Hi. unfold write_bytes at 1.
    destruct (Z.leb_spec (st_get s id + 8) (st_get s id + 8 + Z.of_nat i)); [|lia].
    destruct (Z.ltb_spec (st_get s id + 8 + Z.of_nat i) (st_get s id + 8 + Z.of_nat (length data))); [|lia].
    cbn [andb]. f_equal. lia.
Qed.

(** Reachability through any accepted history of small messages. *)
Lemma push_frame chunk num slack m0 dst os s0 s outs data s' :
  st_cfg chunk num slack -> chunk - 8 <= dst -> sizes_le (chunk - 8) os ->
  st_new chunk num slack m0 = Some s0 -> st_run dst s0 os = Some (s, outs) ->
  Z.of_nat (length data) <= chunk - 8 ->
  st_push s data = Some (s', true) ->
  exists id, 0 <= id < Z.of_nat num /\
    forall x, ~ (chunk * id <= x < chunk * (id + 1)) -> s_mem s' x = s_mem s x.
Proof.
  intros Hcfg Hdst Hsz E0 ER Hd HP.
  destruct (sinv_new chunk num slack m0 Hcfg) as (s00 & E00 & HI). rewrite E0 in E00. injection E00 as <-.
  destruct (st_run_refines _ _ _ dst os s0 [] Hcfg HI Hdst Hsz) as (s1 & E1 & HI1).
  rewrite ER in E1. injection E1 as <- _.
  destruct (push_footprint _ _ _ HP) as (id & Hf & Hout & _).
  destruct HI1 as [Ec En Ee Efc Ebc (free & busy & HRf & HRb & Hp & Hf2)].
  assert (HE : q_empty (s_free s) = false).
  { unfold st_push in HP. destruct (q_empty (s_free s)); [discriminate|reflexivity]. }
  rewrite (Rq_empty _ _ HRf) in HE. destruct free as [|id0 free]; [discriminate|].
  rewrite (Rq_front _ _ _ HRf) in Hf. injection Hf as ->.
  assert (Hid : 0 <= id < Z.of_nat num).
  { assert (I : In id (zrange 0 num)) by (eapply Permutation_in; [exact Hp|cbn; auto]).
    apply in_zrange in I. lia. }
  exists id. split; [exact Hid|]. intros x Hx. apply Hout.
  rewrite (st_get_small chunk num slack) by auto. lia.
Qed.

(** An accepted message longer than [chunk - 8] (but within [chunk]) in a slot
    with a right neighbour sets the neighbour's first byte. *)
Lemma push_spill chunk num slack s id data s' :
  st_cfg chunk num slack -> s_chunk s = chunk ->
  0 <= id < Z.of_nat num -> chunk - 8 < Z.of_nat (length data) <= chunk ->
  q_front (s_free s) = Some id ->
  st_push s data = Some (s', true) ->
  s_mem s' (chunk * (id + 1)) = nth (Z.to_nat (chunk - 8)) data 0.
Proof.
  intros Hcfg Ec Hid Hlen Hf HP.
  destruct (push_footprint _ _ _ HP) as (id' & Hf' & _ & Hin). rewrite Hf in Hf'. injection Hf' as <-.
  rewrite (st_get_small chunk num slack) in Hin by auto.
  rewrite <- (Hin (Z.to_nat (chunk - 8))).
  - f_equal. destruct Hcfg. lia.
  - destruct Hcfg. lia.
Qed.
