(** The sixteen requests of the self-test: how each is encoded, served and answered. *)
From Verif Require Import Base QueueModel MsgStorageModel ModbusCodecModel ModbusCodecSpec ModbusCodecProofs ModbusClientModel ModbusClientSpec ModbusClientProofs
  ModbusServerModel ModbusServerSpec ModbusCompModel ModbusCompSpec ModbusNetModel ModbusNetSpec ModbusNetFacts ControllerModel AppModel SelfTestModel SelfTestSpec.
Local Open Scope Z_scope.

Definition tc0 : tcase := mkTc 0 0 0 0 0 [] 0 false [].
Definition cs (g : list Z) (i : nat) : tcase := nth i (test_cases g) tc0.
Definition itm (g : list Z) (i : nat) : item := case_item i (cs g i).
(** The order of the responses: the request without a client is answered first. *)
Definition ord : list nat := [12; 0; 1; 2; 3; 4; 5; 6; 7; 8; 9; 10; 11; 13; 14; 15]%nat.
(** Requests that reach the wire; requests whose response needs a completed write. *)
Definition wired (i : nat) : bool := existsb (Nat.eqb i) [0; 2; 3; 4; 7; 8; 10; 11; 15]%nat.
Definition needs (i : nat) : bool := existsb (Nat.eqb i) [0; 4; 7; 8]%nat.

Definition wimg (g : list Z) (i : nat) : list Z := buf_write g (Z.to_nat (tc_start (cs g i) * 2)) (tc_write (cs g i)).
Definition img (g : list Z) (wr : nat -> bool) (i : nat) : list Z := if wr i then wimg g i else g.
Definition cases_of (g : list Z) (wr : nat -> bool) : list tcase := map (fun i => set_image (cs g i) (img g wr i)) (seq 0 16).
Definition setw (wr : nat -> bool) (i : nat) : nat -> bool := fun j => (j =? i)%nat || wr j.

(** The controller's reply to the request, and the response to it. *)
Definition rep (g : list Z) (u : Z) (i : nat) : areply :=
  let t := cs g i in
  if tc_func t =? 4 then mkReply u (Z.of_nat i) (tc_ok t) (tc_err t) (tc_num t * 2) (firstn (Z.to_nat (tc_num t * 2)) (skipn (Z.to_nat (tc_start t * 2)) g))
  else if tc_func t =? 6 then mkReply u (Z.of_nat i) (tc_ok t) (tc_err t) 2 (firstn 2 g)
  else mkReply u (Z.of_nat i) (tc_ok t) (tc_err t) 0 [].
Definition ans_data (g : list Z) (i : nat) : list Z :=
  match i with
  | 3%nat => firstn 240 (skipn 1780 g)
  | 4%nat => firstn 2 g
  | 10%nat => firstn 250 (skipn 20 g)
  | _ => []
  end.
Definition ans (g : list Z) (i : nat) : crsp :=
  let t := cs g i in mkCrsp (tc_client t) (Z.of_nat i) (tc_err t) (tc_ok t) (Z.of_nat (length (ans_data g i))) (ans_data g i).

Ltac each i := destruct i as [|[|[|[|[|[|[|[|[|[|[|[|[|[|[|[|?]]]]]]]]]]]]]]]]; [..|exfalso; lia].

Lemma cases_new g : test_cases g = cases_of g (fun _ => false).
Proof. reflexivity. Qed.
Lemma cases_len g wr : length (cases_of g wr) = 16%nat.
Proof. reflexivity. Qed.
Lemma cases_nth g wr i : (i < 16)%nat -> nth_error (cases_of g wr) i = Some (set_image (cs g i) (img g wr i)).
Proof. intros H. each i; reflexivity. Qed.
Lemma case_items_fix g wr : forall l n, case_items n (map (fun i => set_image (cs g i) (img g wr i)) l) = case_items n (map (cs g) l).
Proof. induction l as [|i l IH]; intros n; cbn; [reflexivity|]. rewrite IH. reflexivity. Qed.
Lemma batch_items g wr : case_items 0 (cases_of g wr) = map (itm g) (seq 0 16).
Proof. unfold cases_of. rewrite case_items_fix. reflexivity. Qed.

Section Table.
Context (g : list Z) (Hg : octets g).

Lemma g_len n : (n <= 2048)%nat -> length (firstn n g) = n.
Proof. intros H. destruct Hg as [L _]. rewrite firstn_length. lia. Qed.
Lemma g_part n k : (n + k <= 2048)%nat -> length (firstn k (skipn n g)) = k.
Proof. intros H. destruct Hg as [L _]. rewrite firstn_length, skipn_length. lia. Qed.
Lemma g_bytes n k : bytes_ok (firstn k (skipn n g)).
Proof.
  destruct Hg as [_ B]. unfold bytes_ok in *. rewrite <- (firstn_skipn n g) in B. apply Forall_app in B as [_ B].
  rewrite <- (firstn_skipn k (skipn n g)) in B. now apply Forall_app in B as [B _].
Qed.
Lemma g_head n : bytes_ok (firstn n g).
Proof. exact (g_bytes 0 n). Qed.

Lemma write_len i : (i < 16)%nat -> (length (tc_write (cs g i)) <= 240)%nat.
Proof. intros H. each i; cbn [cs nth test_cases write_many write_one read_regs tc_write length]; rewrite ?g_len by lia; lia. Qed.
Lemma item_fine i : (i < 16)%nat -> req_ok (i_req (itm g i)) /\ q_nbytes (i_req (itm g i)) <= 240 /\ is_u32 (i_client (itm g i)).
Proof.
  intros H. pose proof (write_len i H) as HW. unfold req_ok, itm, case_item. cbn [i_req i_client q_tid q_func q_addr q_start q_nitems q_nbytes q_data].
  assert (HB : bytes_ok (tc_write (cs g i))).
  { each i; cbn [cs nth test_cases write_many write_one read_regs tc_write]; solve [apply g_head | constructor]. }
  split; [|split; [lia|]].
  - repeat split; try assumption; try lia; each i; cbn [cs nth test_cases write_many write_one read_regs tc_func tc_addr tc_start tc_num]; lia.
  - unfold is_u32. each i; cbn [cs nth test_cases write_many write_one read_regs tc_client]; lia.
Qed.

(** ** Encoding *)
Lemma enc_one n tid start : (n = 2)%nat -> exists fr, encode_req (mkReq tid 6 1 start 0 (Z.of_nat (length (firstn n g))) (firstn n g)) = EncOk fr.
Proof.
  intros ->. pose proof (g_len 2 ltac:(lia)) as L. destruct (firstn 2 g) as [|a [|b [|]]]; try discriminate L. eexists. reflexivity.
Qed.
Lemma enc_many n tid start num : (n <= 240)%nat -> Z.of_nat n = num * 2 ->
  exists fr, encode_req (mkReq tid 16 1 start num (Z.of_nat (length (firstn n g))) (firstn n g)) = EncOk fr.
Proof.
  intros Hn E. rewrite (g_len n) by lia. unfold encode_req. cbn [q_tid q_func q_addr q_start q_nitems q_nbytes q_data].
  change (negb (1 <=? maxAddr)) with false. change (is_read_bits 16 || is_read_regs 16) with false. change (is_single 16) with false. change (is_multi 16) with true.
  cbv iota. rewrite E, Z.eqb_refl. cbn [negb]. destruct (wr_pairs_some (pairs (num * 2)) 0 (firstn n g)) as [ps Hps].
  { rewrite g_len by lia. unfold pairs. lia. }
  rewrite Hps. apply wr_pairs_length in Hps. unfold finish. rewrite !app_length, Hps. cbn [wrBe wr length].
  assert ((2 * pairs (num * 2))%nat = n) as -> by (unfold pairs; lia).
  destruct (Z.ltb_spec bufMaxLen (Z.of_nat (2 + (2 + (2 + (1 + (1 + (2 + (2 + (1 + n)))))))))) as [X|_]; [unfold bufMaxLen in X; lia|].
  destruct (Z.ltb_spec maxAduLen (Z.of_nat (2 + (2 + (2 + (1 + (1 + (2 + (2 + (1 + n)))))))))) as [X|_]; [unfold maxAduLen in X; lia|]. eauto.
Qed.
Lemma enc_wired i : (i < 16)%nat -> wired i = true -> exists fr, encode_req (i_req (itm g i)) = EncOk fr.
Proof.
  intros H W. each i; try discriminate W; unfold itm, case_item; cbn [i_req cs nth test_cases write_many write_one read_regs tc_func tc_addr tc_start tc_num tc_write];
  solve [apply enc_many; lia | apply enc_one; lia | eexists; reflexivity].
Qed.
Lemma enc_other i : (i < 16)%nat -> wired i = false -> i <> 12%nat -> exists r, encode_req (i_req (itm g i)) = EncFail r.
Proof.
  intros H W N. each i; try discriminate W; try congruence; unfold itm, case_item; cbn [i_req cs nth test_cases write_many write_one read_regs tc_func tc_addr tc_start tc_num tc_write];
  try (eexists; reflexivity).
  unfold encode_req. rewrite (g_len 4) by lia. eexists. reflexivity.
Qed.

(** ** Serving *)
Lemma write_nothing (v : list Z) n : buf_write v n [] = v.
Proof. unfold buf_write. cbn. rewrite Nat.add_0_r. apply firstn_skipn. Qed.
Lemma write_size (v : list Z) n d : (n + length d <= length v)%nat -> length (buf_write v n d) = length v.
Proof. intros H. unfold buf_write. rewrite !app_length, firstn_length, skipn_length. lia. Qed.
Lemma write_again (v : list Z) n d : (n + length d <= length v)%nat -> buf_write (buf_write v n d) n d = buf_write v n d.
Proof.
  intros H. unfold buf_write at 1. assert (L : length (firstn n v) = n) by (rewrite firstn_length; lia).
  assert (E1 : firstn n (buf_write v n d) = firstn n v).
  { unfold buf_write. rewrite firstn_app, L, Nat.sub_diag, firstn_O, app_nil_r. apply firstn_all2. lia. }
  assert (E2 : skipn (n + length d) (buf_write v n d) = skipn (n + length d) v).
  { unfold buf_write. rewrite app_assoc, skipn_app. rewrite skipn_all2 by (rewrite app_length; lia).
    replace (n + length d - length (firstn n v ++ d))%nat with 0%nat by (rewrite app_length; lia). reflexivity. }
  rewrite E1, E2. reflexivity.
Qed.
Lemma write_read (v : list Z) n d : (n + length d <= length v)%nat -> firstn (length d) (skipn n (buf_write v n d)) = d.
Proof.
  intros H. unfold buf_write. rewrite skipn_app. rewrite skipn_all2 by (rewrite firstn_length; lia).
  replace (n - length (firstn n v))%nat with 0%nat by (rewrite firstn_length; lia). cbn [List.app skipn].
  rewrite firstn_app, Nat.sub_diag, firstn_O, app_nil_r. apply firstn_all2. lia.
Qed.
Lemma write_room i : (i < 16)%nat -> (Z.to_nat (tc_start (cs g i) * 2) + length (tc_write (cs g i)) <= 2048)%nat.
Proof.
  intros H. each i; cbn [cs nth test_cases write_many write_one read_regs tc_write tc_start length]; rewrite ?g_len by lia; lia.
Qed.
Lemma img_len wr i : (i < 16)%nat -> length (img g wr i) = 2048%nat.
Proof.
  intros H. pose proof (proj1 Hg). pose proof (write_room i H). unfold img, wimg. destruct (wr i); [rewrite write_size; lia|lia].
Qed.
Lemma img_set wr i : (i < 16)%nat -> buf_write (img g wr i) (Z.to_nat (tc_start (cs g i) * 2)) (tc_write (cs g i)) = wimg g i.
Proof.
  intros H. pose proof (proj1 Hg). pose proof (write_room i H). unfold img. destruct (wr i); [|reflexivity]. unfold wimg. apply write_again. lia.
Qed.
Lemma img_read wr i : (i < 16)%nat -> tc_write (cs g i) = [] -> img g wr i = g.
Proof. intros H E. unfold img, wimg. rewrite E, write_nothing. now destruct (wr i). Qed.

Lemma upd_map {A} (f f' : nat -> A) n i x : (i < n)%nat -> f' i = x -> (forall j, j <> i -> f' j = f j) -> upd (map f (seq 0 n)) i x = map f' (seq 0 n).
Proof.
  intros Hi Hx Ho. apply nth_error_ext. intros k.
  destruct (Nat.lt_ge_cases k n) as [Hk|Hk].
  - rewrite (map_nth_error f' k (seq 0 n) (d := k)).
    2:{ rewrite (nth_error_nth' _ 0%nat) by (rewrite seq_length; lia). now rewrite seq_nth. }
    destruct (Nat.eq_dec k i) as [->|Ne].
    + rewrite nth_error_upd_eq by (rewrite map_length, seq_length; lia). congruence.
    + rewrite nth_error_upd_neq by auto. rewrite (map_nth_error f k (seq 0 n) (d := k)).
      2:{ rewrite (nth_error_nth' _ 0%nat) by (rewrite seq_length; lia). now rewrite seq_nth. }
      f_equal. symmetry. auto.
  - rewrite !(proj2 (nth_error_None _ _)); auto; rewrite ?upd_length, map_length, seq_length; lia.
Qed.
Lemma cases_upd wr i : (i < 16)%nat -> upd (cases_of g wr) i (set_image (cs g i) (wimg g i)) = cases_of g (setw wr i).
Proof.
  intros H. apply upd_map; [auto| |].
  - unfold img, setw. now rewrite Nat.eqb_refl.
  - intros j Hj. unfold img, setw. apply Nat.eqb_neq in Hj. now rewrite Hj.
Qed.
Lemma cases_same wr i : (i < 16)%nat -> tc_write (cs g i) = [] -> cases_of g (setw wr i) = cases_of g wr.
Proof.
  intros H E. apply map_ext_in. intros j Hj. apply in_seq in Hj. f_equal. unfold img, setw. destruct (Nat.eqb_spec j i) as [->|]; [|reflexivity].
  cbn [orb]. unfold wimg. rewrite E, write_nothing. now destruct (wr i).
Qed.

Definition told_by (p : areply) : kout := KoReply 0 (p_session p) (p_tid p) (p_ok p) (p_error p) (p_nbytes p) (p_data p).
Lemma n_cases_id mt cs' : m_cases mt = cs' -> n_cases mt cs' = mt.
Proof. intros <-. now destruct mt. Qed.

Lemma serve_read mt wr u i st n nb d : (i < 16)%nat -> m_cases mt = cases_of g wr -> tc_func (cs g i) = 4 -> tc_write (cs g i) = [] ->
  n = tc_num (cs g i) -> st = tc_start (cs g i) -> 0 <= n <= 125 -> 0 <= st <= 890 ->
  m_serve mt (mkMreq 0 u (Z.of_nat i) 4 st n nb d) = Some (n_cases mt (cases_of g (setw wr i)), [told_by (rep g u i)]).
Proof.
  intros Hi Hc Hf Hw -> -> Hn Hst. rewrite cases_same, (n_cases_id mt) by auto. unfold m_serve. cbn [a_tid a_func a_num a_start a_server a_session].
  rewrite Nat2Z.id, Hc, cases_nth by auto. rewrite (img_read wr i Hi Hw). cbn [set_image tc_image tc_ok tc_err]. change (is_reg_read 4) with true. cbv iota.
  assert (u16 (tc_num (cs g i) * 2) = tc_num (cs g i) * 2) as -> by (unfold u16; lia). unfold replyRoom.
  destruct (Z.ltb_spec 4070 (tc_num (cs g i) * 2)); [lia|]. unfold part. rewrite (proj1 Hg).
  destruct (Z.ltb_spec (tc_start (cs g i) * 2) (Z.of_nat 2048)); [|lia].
  destruct (Z.leb_spec (tc_start (cs g i) * 2 + tc_num (cs g i) * 2) (Z.of_nat 2048)); [|lia]. cbn [andb].
  unfold told_by, rep. rewrite Hf. reflexivity.
Qed.
Lemma serve_write mt wr u i f st n nb d : (i < 16)%nat -> m_cases mt = cases_of g wr -> f = tc_func (cs g i) ->
  (f = 6 /\ tc_write (cs g i) = firstn 2 g \/ f = 16) -> st = tc_start (cs g i) -> 0 <= st <= 890 ->
  d = tc_write (cs g i) -> nb = Z.of_nat (length d) ->
  m_serve mt (mkMreq 0 u (Z.of_nat i) f st n nb d) = Some (n_cases mt (cases_of g (setw wr i)), [told_by (rep g u i)]).
Proof.
  intros Hi Hc Ef Hf -> Hst -> ->. pose proof (write_len i Hi) as HL. pose proof (write_room i Hi) as HR.
  unfold m_serve. cbn [a_tid a_func a_num a_start a_server a_session a_data a_nbytes].
  rewrite Nat2Z.id, Hc, cases_nth by auto. rewrite firstn_all2 by lia.
  assert (is_reg_read f = false) as -> by (unfold is_reg_read; lia).
  assert ((f =? 6) || (f =? 16) = true) as -> by lia. unfold replyRoom.
  assert ((Z.of_nat (length (tc_write (cs g i))) <? Z.of_nat (length (tc_write (cs g i)))) || ((f =? 6) && (4070 <? Z.of_nat (length (tc_write (cs g i))))) = false) as -> by lia.
  unfold image_put. cbn [set_image tc_image tc_ok tc_err]. rewrite img_len by auto.
  destruct (Z.ltb_spec (tc_start (cs g i) * 2) (Z.of_nat 2048)); [|lia].
  destruct (Z.leb_spec (tc_start (cs g i) * 2 + Z.of_nat (length (tc_write (cs g i)))) (Z.of_nat 2048)); [|lia]. cbn [andb].
  rewrite img_set by auto. unfold told_by, rep. rewrite <- Ef.
  change (set_image (set_image (cs g i) (img g wr i)) (wimg g i)) with (set_image (cs g i) (wimg g i)). rewrite cases_upd by auto.
  destruct Hf as [(-> & Hw) | ->]; [|reflexivity]. cbn [Z.eqb Pos.eqb p_session p_tid p_ok p_error p_nbytes p_data]. rewrite Hw, g_len by lia. reflexivity.
Qed.
Lemma serve_case mt wr u i u' t f a st n nb d : (i < 16)%nat -> wired i = true -> m_cases mt = cases_of g wr ->
  forwards u (i_req (itm g i)) (TReq u' t f a st n nb d) ->
  m_serve mt (mkMreq 0 u' t f st n nb d) = Some (n_cases mt (cases_of g (setw wr i)), [told_by (rep g u i)]).
Proof.
  intros Hi W Hc F. destruct F as (-> & Ht & Hf & _ & Hst & Hn & Hd).
  assert (t = Z.of_nat i) as ->. { rewrite Ht. unfold itm, case_item. cbn [i_req q_tid]. apply Z.mod_small. lia. }
  clear Ht. unfold itm, case_item in *. cbn [i_req q_func q_start q_nitems q_nbytes q_data] in *.
  rewrite Nat2Z.id, firstn_all2 in Hd by lia.
  assert (tc_func (cs g i) = 4 /\ tc_write (cs g i) = [] /\ 0 <= tc_num (cs g i) <= 125 /\ 0 <= tc_start (cs g i) <= 890 \/
          (tc_func (cs g i) = 6 /\ tc_write (cs g i) = firstn 2 g \/ tc_func (cs g i) = 16) /\ 0 <= tc_start (cs g i) <= 890) as C.
  { each i; try discriminate W; cbn [cs nth test_cases write_many write_one read_regs tc_func tc_start tc_num tc_write]; first [left; repeat split; lia | right; split; [auto|lia]]. }
  destruct C as [(C1 & C2 & C3 & C4)|(C1 & C2)].
  - subst f. rewrite C1. subst st. apply serve_read; auto.
    + apply Hn. rewrite C1. cbn. auto.
    + rewrite Hn by (rewrite C1; cbn; auto). auto.
  - assert (In f [5; 6; 16]) as Hin by (rewrite Hf; destruct C1 as [[-> _]| ->]; cbn; auto). destruct (Hd Hin) as (-> & ->).
    subst f st. apply serve_write; auto.
Qed.

(** ** Checking *)
Lemma zlist_refl l : zlist_eqb l l = true.
Proof. unfold zlist_eqb. now destruct (list_eq_dec Z.eq_dec l l). Qed.
Lemma same_write_ok wr i : (i < 16)%nat -> needs i = true -> wr i = true -> same_write (set_image (cs g i) (img g wr i)) = Some true.
Proof.
  intros Hi N W. pose proof (write_room i Hi) as HR. pose proof (img_len wr i Hi) as HL.
  assert (Hne : tc_write (cs g i) <> [] /\ 0 <= tc_start (cs g i) <= 890).
  { assert (G : forall n, (2 <= n <= 240)%nat -> firstn n g <> []) by (intros n Hn E; apply (f_equal (@length Z)) in E; rewrite g_len in E by lia; cbn in E; lia).
    each i; try discriminate N; cbn [cs nth test_cases write_many write_one read_regs tc_start tc_write]; (split; [apply G|]; lia). }
  destruct Hne as [Hne Hst]. unfold same_write. cbn [set_image tc_write tc_image tc_start].
  assert (P : part (img g wr i) (tc_start (cs g i) * 2) (Z.of_nat (length (tc_write (cs g i)))) = Some (tc_write (cs g i))).
  { assert (0 < length (tc_write (cs g i)))%nat by (destruct (tc_write (cs g i)); [congruence|cbn; lia]).
    unfold part. rewrite HL. destruct (Z.ltb_spec (tc_start (cs g i) * 2) (Z.of_nat 2048)); [|lia].
    destruct (Z.leb_spec (tc_start (cs g i) * 2 + Z.of_nat (length (tc_write (cs g i)))) (Z.of_nat 2048)); [|lia]. cbn [andb]. f_equal.
    unfold img. rewrite W, Nat2Z.id. unfold wimg. apply write_read. rewrite (proj1 Hg). lia. }
  revert P. destruct (tc_write (cs g i)) as [|x l] eqn:E; [congruence|]. intros P. rewrite P. now rewrite zlist_refl.
Qed.
Lemma check_case wr i : (i < 16)%nat -> (needs i = true -> wr i = true) -> m_check (set_image (cs g i) (img g wr i)) (ans g i) = Some true.
Proof.
  intros Hi HW. unfold m_check, ans. cbn [r_client r_ok r_err r_nbytes r_data]. cbn [set_image tc_client tc_ok tc_err tc_func tc_num tc_start tc_image].
  rewrite !Z.eqb_refl, Bool.eqb_reflx. cbn [negb].
  destruct (tc_ok (cs g i) && (tc_err (cs g i) =? 0)) eqn:Eok; [|reflexivity].
  destruct (needs i) eqn:N.
  - rewrite same_write_ok by auto. each i; try discriminate N; try reflexivity.
    change (Z.of_nat (length (ans_data g 4))) with (Z.of_nat (length (firstn 2 g))). rewrite g_len by lia. reflexivity.
  - assert (R : tc_func (cs g i) = 4 /\ tc_write (cs g i) = [] /\ 0 <= tc_num (cs g i) <= 125 /\ 0 <= tc_start (cs g i) <= 890 /\
              ans_data g i = firstn (Z.to_nat (tc_num (cs g i) * 2)) (skipn (Z.to_nat (tc_start (cs g i) * 2)) g)).
    { each i; try discriminate N; try discriminate Eok; cbn [cs nth test_cases write_many write_one read_regs tc_func tc_start tc_num tc_write ans_data]; repeat split; lia. }
    destruct R as (R1 & R2 & R3 & R4 & R5). rewrite R1. change (is_reg_read 4) with true. cbv iota. rewrite R5, g_part by lia.
    rewrite Z2Nat.id, Z.eqb_refl by lia. cbn [negb]. rewrite (img_read wr i Hi R2). unfold part. rewrite (proj1 Hg).
    destruct (Z.ltb_spec (tc_start (cs g i) * 2) (Z.of_nat 2048)); [|lia].
    destruct (Z.leb_spec (tc_start (cs g i) * 2 + tc_num (cs g i) * 2) (Z.of_nat 2048)); [|lia]. cbn [andb].
    rewrite firstn_firstn, Nat.min_id, zlist_refl. reflexivity.
Qed.

(** ** Responses *)
Lemma rep_fine u i : (i < 16)%nat -> wired i = true -> 0 <= u < 256 -> reply_ok (rep g u i) /\ p_session (rep g u i) = u /\ p_tid (rep g u i) = Z.of_nat i /\
  p_nbytes (rep g u i) <= 260 /\ (i <> 15%nat -> p_ok (rep g u i) = true /\ expressible (q_func (i_req (itm g i))) (rep g u i) = true) /\ (i = 15%nat -> p_ok (rep g u i) = false).
Proof.
  intros Hi W Hu. assert (B : bytes_ok (@nil Z)) by constructor. pose proof g_bytes as GB. pose proof g_head as GH.
  each i; try discriminate W; unfold rep, itm, case_item, reply_ok, is_u32, is_u16, is_byte;
  cbn [i_req q_func cs nth test_cases write_many write_one read_regs tc_func tc_start tc_num tc_write tc_ok tc_err Z.eqb Pos.eqb p_session p_tid p_ok p_error p_nbytes p_data];
  rewrite ?g_part, ?g_len by lia; repeat split; try lia; auto; try congruence.
Qed.
Lemma ans_told u i o : (i < 16)%nat -> wired i = true -> i <> 15%nat -> told (itm g i) (rep g u i) o -> c_sends o = [GFromModbus (TvRsp (ans g i))].
Proof.
  intros Hi W N T. assert (i = 2%nat \/ i <> 2%nat) as [->|N2] by lia.
  - unfold told in T. cbn [itm case_item i_req q_tid i_client q_func Z.leb Z.of_nat] in T. cbn in T. destruct T as (c & -> & E). rewrite E by tauto. reflexivity.
  - assert (T2 : o = ORsp (tc_client (cs g i)) (Z.of_nat i) true 0 (ans_data g i)).
    { unfold told in T. cbn [itm case_item i_req q_tid i_client q_func] in T. destruct (Z.leb_spec 65536 (Z.of_nat i)); [lia|].
      each i; try discriminate W; try congruence; cbn [rep cs nth test_cases write_many write_one read_regs tc_func tc_start tc_num tc_write tc_ok tc_err tc_client Z.eqb Pos.eqb p_error payload orb p_data p_nbytes ans_data] in *;
      rewrite T; unfold payload; cbn [Z.eqb Pos.eqb orb p_data p_nbytes]; rewrite ?firstn_firstn; reflexivity. }
    rewrite T2. unfold c_sends, ans. each i; try discriminate W; try congruence; reflexivity.
Qed.
Lemma ans_err i : (i < 16)%nat -> i <> 12%nat -> wired i = false \/ i = 15%nat -> c_sends (error_for (stored (itm g i))) = [GFromModbus (TvRsp (ans g i))].
Proof. intros Hi N W. each i; try (destruct W as [W|W]; discriminate W); try congruence; reflexivity. Qed.
End Table.
