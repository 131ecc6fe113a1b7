(** Which octets a decoder looks at, when it aborts, and what the encoder of expanded node ids does. *)
From Verif Require Import Base TimeProofs ModbusCodecSpec UaCodecModel UaCodecSpec UaCodecProofs.
Local Open Scope Z_scope.

(** ** Locality: a successful decoding depends on the octets before its final cursor only *)
Definition Loc {A} (d : rd A) : Prop := Adv d /\ forall b x b' b2, d b = DOk x b' -> k_tail b2 = k_tail b ->
  firstn (k_tail b') (k_pkt b2) = firstn (k_tail b') (k_pkt b) -> d b2 = DOk x (mkSdu (k_tail b') (k_head b2) (k_pkt b2)).
Lemma firstn_le {A} (l l' : list A) n m : (m <= n)%nat -> firstn n l = firstn n l' -> firstn m l = firstn m l'.
Proof. intros H E. rewrite <- (Nat.min_l m n) by lia. rewrite <- !firstn_firstn, E. reflexivity. Qed.
Lemma Loc_ret {A} (x : A) : Loc (ret x).
Proof. split; [apply Adv_ret|]. intros b y b' b2 E T _. unfold ret in *. injection E as <- <-. rewrite <- T. now destruct b2. Qed.
Lemma Loc_bind {A B} (m : rd A) (k : A -> rd B) : Loc m -> (forall a, Loc (k a)) -> Loc (bind m k).
Proof.
  intros [Am Lm] Hk. split; [apply Adv_bind; [auto|intros; apply Hk]|].
  intros b x b' b2 E T F. unfold bind in *. destruct (m b) as [a b1| | |] eqn:Em; try discriminate.
  destruct (Hk a) as [Ak Lk]. destruct (Ak _ _ _ E) as (T1 & _ & P1). destruct (Am _ _ _ Em) as (T0 & _ & P0).
  rewrite (Lm b a b1 b2 Em T) by (eapply firstn_le; eauto). apply (Lk b1 x b' (mkSdu (k_tail b1) (k_head b2) (k_pkt b2)) E); cbn [k_tail k_pkt k_head]; [reflexivity|].
  now rewrite P0.
Qed.
Lemma nth_firstn {A} (l l' : list A) i n : (i < n)%nat -> firstn n l = firstn n l' -> nth_error l i = nth_error l' i.
Proof.
  revert l l' n. induction i as [|i IH]; intros [|x l] [|y l'] [|n] H E; try lia; cbn in *; try discriminate; try reflexivity; injection E; intros; subst.
  - reflexivity.
  - eapply IH; [|eassumption]. lia.
Qed.
Lemma Loc_read : Loc read.
Proof.
  split; [apply Adv_read|]. intros b x b' b2 E T F. apply read_some in E as [N ->]. cbn [k_tail] in *. unfold read. rewrite T.
  rewrite (nth_firstn _ (k_pkt b) _ (S (k_tail b))) by (auto; lia). now rewrite N.
Qed.
Lemma Loc_if {A} (c : bool) (x y : rd A) : Loc x -> Loc y -> Loc (if c then x else y).
Proof. destruct c; auto. Qed.
Lemma Loc_throw {A} : Loc (fun _ => @DThrow A). Proof. split; [apply Adv_throw|]. discriminate. Qed.
Lemma Loc_abort {A} : Loc (fun _ => @DAbort A). Proof. split; [apply Adv_abort|]. discriminate. Qed.
Lemma Loc_oob {A} : Loc (fun _ => @DOob A). Proof. split; [apply Adv_oob|]. discriminate. Qed.
Create HintDb loc.
#[global] Hint Resolve Loc_ret Loc_read Loc_throw Loc_abort Loc_oob : loc.
Ltac loct := repeat first [solve [auto with loc]|apply Loc_bind; [|intros]|apply Loc_if].
Lemma Loc_bool : Loc dec_bool. Proof. unfold dec_bool. loct. Qed.
Lemma Loc_sbyte : Loc dec_sbyte. Proof. unfold dec_sbyte. loct. Qed.
Lemma Loc_byte : Loc dec_byte. Proof. apply Loc_read. Qed.
Lemma Loc_u16 : Loc dec_u16. Proof. unfold dec_u16. loct. Qed.
Lemma Loc_i16 : Loc dec_i16. Proof. unfold dec_i16. loct. Qed.
Lemma Loc_32 : Loc rd32. Proof. unfold rd32. loct. Qed.
Lemma Loc_64 : Loc rd64. Proof. unfold rd64. loct. Qed.
#[global] Hint Resolve Loc_bool Loc_sbyte Loc_byte Loc_u16 Loc_i16 Loc_32 Loc_64 : loc.
Lemma Loc_i32 : Loc dec_i32. Proof. unfold dec_i32. loct. Qed.
Lemma Loc_u32 : Loc dec_u32. Proof. apply Loc_32. Qed.
Lemma Loc_i64 : Loc dec_i64. Proof. unfold dec_i64. loct. Qed.
Lemma Loc_u64 : Loc dec_u64. Proof. apply Loc_64. Qed.
Lemma Loc_status : Loc dec_status. Proof. apply Loc_32. Qed.
Lemma Loc_datetime : Loc dec_datetime. Proof. apply Loc_i64. Qed.
Lemma Loc_float : Loc dec_float. Proof. apply Loc_32. Qed.
Lemma Loc_double : Loc dec_double. Proof. apply Loc_64. Qed.
Lemma Loc_n n : Loc (rdn n). Proof. induction n; cbn [rdn]; loct. Qed.
#[global] Hint Resolve Loc_i32 Loc_u32 Loc_i64 Loc_u64 Loc_status Loc_datetime Loc_float Loc_double Loc_n : loc.
Lemma Loc_str o : Loc (dec_string o). Proof. unfold dec_string. loct. Qed.
Lemma Loc_bstr o : Loc (dec_bstring o). Proof. unfold dec_bstring. loct. Qed.
Lemma Loc_opt {A} (d : rd A) : Loc d -> Loc (dec_opt d). Proof. intros. unfold dec_opt. loct. Qed.
Lemma Loc_when {A} c (d : rd A) o : Loc d -> Loc (when_d c d o). Proof. intros. unfold when_d. apply Loc_if; [now apply Loc_opt|auto with loc]. Qed.
Lemma Loc_each {A} (d : A -> rd A) l : (forall x, Loc (d x)) -> Loc (dec_each d l).
Proof. intros H. induction l; cbn [dec_each]; loct. Qed.
Lemma Loc_fresh {A} (d : rd A) x : Loc d -> Loc (fresh d x). Proof. auto. Qed.
Lemma Loc_arr {A} d0 (d : A -> rd A) o : (forall x, Loc (d x)) -> Loc (dec_arr d0 d o).
Proof. intros H. unfold dec_arr. loct. now apply Loc_each. Qed.
#[global] Hint Resolve Loc_str Loc_bstr Loc_opt Loc_when Loc_each Loc_fresh Loc_arr : loc.
Lemma Loc_guid o : Loc (dec_guid o). Proof. unfold dec_guid. loct. Qed.
#[global] Hint Resolve Loc_guid : loc.
Lemma Loc_nodeid o : Loc (dec_nodeid o).
Proof.
  unfold dec_nodeid. apply Loc_bind; [auto with loc|]. intros e.
  destruct (Z.land e 15) as [|p|p]; [loct| |auto with loc].
  destruct p as [p|p|]; [destruct p as [p|p|]|destruct p as [p|p|]|]; try (destruct p); loct.
Qed.
#[global] Hint Resolve Loc_nodeid : loc.
Lemma Loc_diag_f n : forall o, Loc (dec_diag_f n o).
Proof. induction n as [|n IH]; intros [a b c d e f g]; cbn [dec_diag_f]; [auto with loc|]. loct. Qed.
Lemma Loc_diag o : Loc (dec_diag o).
Proof.
  split; [apply Adv_diag|]. intros b x b' b2 E T F. unfold dec_diag in *.
  set (N := S ((length (k_pkt b) - k_tail b) + (length (k_pkt b2) - k_tail b2))).
  rewrite (diag_fuel _ N) in E by lia. rewrite (diag_fuel _ N) by lia.
  destruct (Loc_diag_f N o) as [_ L]. now apply (L b).
Qed.
#[global] Hint Resolve Loc_diag : loc.
Lemma Loc_qname o : Loc (dec_qname o). Proof. unfold dec_qname. loct. Qed.
Lemma Loc_ltext o : Loc (dec_ltext o). Proof. unfold dec_ltext. loct. Qed.
Lemma Loc_xml o : Loc (dec_xml o). Proof. unfold dec_xml. loct. Qed.
Lemma Loc_extobj o : Loc (dec_extobj o). Proof. unfold dec_extobj. loct. Qed.
Lemma nodeid_strict o b x b' : dec_nodeid o b = DOk x b' -> (S (k_tail b) <= k_tail b')%nat.
Proof.
  unfold dec_nodeid, bind at 1, dec_byte at 1. intros E. destruct (read b) as [e b1| | |] eqn:R; try discriminate.
  apply read_some in R as [_ ->]. revert E.
  match goal with |- ?f ?s = _ -> _ => assert (A : Adv f) end.
  { destruct (Z.land e 15) as [|p|p]; [advt2| |auto with adv].
    destruct p as [p|p|]; [destruct p as [p|p|]|destruct p as [p|p|]|]; try (destruct p); advt2. }
  intros E. destruct (A _ _ _ E) as [T _]. exact T.
Qed.
Lemma Loc_xnodeid o : Loc (dec_xnodeid o).
Proof.
  split; [apply Adv_xnodeid|]. intros b x b' b2 E T F. unfold dec_xnodeid in *. unfold bind at 1 in E. unfold bind at 1.
  unfold peek in *. destruct (nth_error (k_pkt b) (k_tail b)) as [m|] eqn:N; [|discriminate].
  set (k := fun m => do n <- dec_nodeid (xn_id o); do u <- when_d (has m 128) (dec_string []) (xn_uri o);
    do i <- when_d (has m 64) dec_u32 (xn_srv o); ret (mkXn n u i)) in *.
  change (k m b = DOk x b') in E.
  assert (S1 : (S (k_tail b) <= k_tail b')%nat).
  { subst k. cbn beta in E. unfold bind at 1 in E. destruct (dec_nodeid (xn_id o) b) as [n b1| | |] eqn:En; try discriminate.
    apply nodeid_strict in En. assert (A : Adv (do u <- when_d (has m 128) (dec_string []) (xn_uri o);
    do i <- when_d (has m 64) dec_u32 (xn_srv o); ret (mkXn n u i))) by advt2. destruct (A _ _ _ E) as [T1 _]. lia. }
  rewrite T. rewrite (nth_firstn (k_pkt b2) (k_pkt b) _ (k_tail b')) by (auto; lia). rewrite N.
  change (k m b2 = DOk x (mkSdu (k_tail b') (k_head b2) (k_pkt b2))).
  assert (L : Loc (k m)) by (subst k; loct). destruct L as [_ L]. now apply (L b).
Qed.
#[global] Hint Resolve Loc_qname Loc_ltext Loc_xml Loc_extobj Loc_xnodeid : loc.
Lemma Loc_variant o : Loc (dec_variant o).
Proof.
  unfold dec_variant. apply Loc_bind; [auto with loc|]. intros m. apply Loc_if; [auto with loc|]. cbv zeta.
  apply Loc_if.
  - destruct (Z.land m 63) as [|p|p]; [auto with loc| |auto with loc].
    do 3 (destruct p as [p|p|]; try solve [loct; auto with loc]).
  - destruct (Z.land m 63) as [|p|p]; [auto with loc| |auto with loc].
    do 6 (destruct p as [p|p|]; try solve [loct; auto with loc]).
Qed.
#[global] Hint Resolve Loc_variant : loc.
Lemma Loc_dvalue o : Loc (dec_dvalue o). Proof. unfold dec_dvalue. loct. Qed.
#[global] Hint Resolve Loc_dvalue : loc.
Lemma Loc_mhdr o : Loc (dec_mhdr o). Proof. unfold dec_mhdr. loct. Qed.
#[global] Hint Resolve Loc_mhdr : loc.
Lemma Loc_uhdr o : Loc (dec_uhdr o). Proof. unfold dec_uhdr. loct. Qed.
#[global] Hint Resolve Loc_uhdr : loc.
Lemma Loc_hello o : Loc (dec_hello o). Proof. unfold dec_hello. loct. Qed.
#[global] Hint Resolve Loc_hello : loc.
Lemma Loc_ack : Loc dec_ack. Proof. unfold dec_ack. loct. Qed.
#[global] Hint Resolve Loc_ack : loc.
Lemma Loc_errmsg o : Loc (dec_errmsg o). Proof. unfold dec_errmsg. loct. Qed.
#[global] Hint Resolve Loc_errmsg : loc.
Lemma Loc_rhello o : Loc (dec_rhello o). Proof. unfold dec_rhello. loct. Qed.
#[global] Hint Resolve Loc_rhello : loc.
Lemma Loc_sechdr o : Loc (dec_sechdr o). Proof. unfold dec_sechdr. loct. Qed.
#[global] Hint Resolve Loc_sechdr : loc.
Lemma Loc_tokhdr : Loc dec_tokhdr. Proof. unfold dec_tokhdr. loct. Qed.
#[global] Hint Resolve Loc_tokhdr : loc.
Lemma Loc_seqhdr : Loc dec_seqhdr. Proof. unfold dec_seqhdr. loct. Qed.
#[global] Hint Resolve Loc_seqhdr : loc.
Lemma Loc_reqhdr o : Loc (dec_reqhdr o). Proof. unfold dec_reqhdr. loct. Qed.
#[global] Hint Resolve Loc_reqhdr : loc.
Lemma Loc_rsphdr o : Loc (dec_rsphdr o). Proof. unfold dec_rsphdr. loct. Qed.
#[global] Hint Resolve Loc_rsphdr : loc.
Lemma Loc_openreq o : Loc (dec_openreq o). Proof. unfold dec_openreq. loct. Qed.
#[global] Hint Resolve Loc_openreq : loc.
Lemma Loc_closereq o : Loc (dec_closereq o). Proof. unfold dec_closereq. loct. Qed.
#[global] Hint Resolve Loc_closereq : loc.
Lemma Loc_closersp o : Loc (dec_closersp o). Proof. unfold dec_closersp. loct. Qed.
#[global] Hint Resolve Loc_closersp : loc.
Lemma Loc_chtoken : Loc dec_chtoken. Proof. unfold dec_chtoken. loct. Qed.
#[global] Hint Resolve Loc_chtoken : loc.
Lemma Loc_openrsp o : Loc (dec_openrsp o). Proof. unfold dec_openrsp. loct. Qed.
#[global] Hint Resolve Loc_openrsp : loc.
Lemma Loc_appdesc o : Loc (dec_appdesc o). Proof. unfold dec_appdesc. loct. Qed.
#[global] Hint Resolve Loc_appdesc : loc.
Lemma Loc_utpolicy o : Loc (dec_utpolicy o). Proof. unfold dec_utpolicy. loct. Qed.
#[global] Hint Resolve Loc_utpolicy : loc.
Lemma Loc_epdesc o : Loc (dec_epdesc o). Proof. unfold dec_epdesc. loct. Qed.
#[global] Hint Resolve Loc_epdesc : loc.
Lemma Loc_epreq o : Loc (dec_epreq o). Proof. unfold dec_epreq. loct. Qed.
#[global] Hint Resolve Loc_epreq : loc.
Lemma Loc_eprsp o : Loc (dec_eprsp o). Proof. unfold dec_eprsp. loct. Qed.
#[global] Hint Resolve Loc_eprsp : loc.
Lemma Loc_sigdata o : Loc (dec_sigdata o). Proof. unfold dec_sigdata. loct. Qed.
#[global] Hint Resolve Loc_sigdata : loc.
Lemma Loc_csreq o : Loc (dec_csreq o). Proof. unfold dec_csreq. loct. Qed.
#[global] Hint Resolve Loc_csreq : loc.
Lemma Loc_csrsp o : Loc (dec_csrsp o). Proof. unfold dec_csrsp. loct. Qed.
#[global] Hint Resolve Loc_csrsp : loc.
Lemma Loc_clsreq o : Loc (dec_clsreq o). Proof. unfold dec_clsreq. loct. Qed.
#[global] Hint Resolve Loc_clsreq : loc.
Lemma Loc_clsrsp o : Loc (dec_clsrsp o). Proof. unfold dec_clsrsp. loct. Qed.
#[global] Hint Resolve Loc_clsrsp : loc.
Lemma Loc_asreq o : Loc (dec_asreq o). Proof. unfold dec_asreq. loct. Qed.
#[global] Hint Resolve Loc_asreq : loc.
Lemma Loc_asrsp o : Loc (dec_asrsp o). Proof. unfold dec_asrsp. loct. Qed.
#[global] Hint Resolve Loc_asrsp : loc.
Lemma Loc_rvid o : Loc (dec_rvid o). Proof. unfold dec_rvid. loct. Qed.
#[global] Hint Resolve Loc_rvid : loc.
Lemma Loc_rdreq o : Loc (dec_rdreq o). Proof. unfold dec_rdreq. loct. Qed.
#[global] Hint Resolve Loc_rdreq : loc.
Lemma Loc_rdrsp o : Loc (dec_rdrsp o). Proof. unfold dec_rdrsp. loct. Qed.
#[global] Hint Resolve Loc_rdrsp : loc.
Lemma Loc_cont {A} (d : A -> rd A) o : (forall x, Loc (d x)) -> Loc (dec_cont d o). Proof. intros. unfold dec_cont. loct. Qed.
#[global] Hint Resolve Loc_cont : loc.

(** ** Decoders that never reach a bare [throw] *)
Definition NoAb {A} (d : rd A) : Prop := forall b, d b <> DAbort.
Lemma NoAb_ret {A} (x : A) : NoAb (ret x). Proof. discriminate. Qed.
Lemma NoAb_bind {A B} (m : rd A) (k : A -> rd B) : NoAb m -> (forall a, NoAb (k a)) -> NoAb (bind m k).
Proof.
  intros Hm Hk b. unfold bind. specialize (Hm b). destruct (m b) as [a b1| | |]; try discriminate; [apply Hk|congruence].
Qed.
Lemma NoAb_read : NoAb read. Proof. intros b. unfold read. destruct (nth_error _ _); discriminate. Qed.
Lemma NoAb_if {A} (c : bool) (x y : rd A) : NoAb x -> NoAb y -> NoAb (if c then x else y).
Proof. destruct c; auto. Qed.
Lemma NoAb_throw {A} : NoAb (fun _ => @DThrow A). Proof. discriminate. Qed.
Lemma NoAb_oob {A} : NoAb (fun _ => @DOob A). Proof. discriminate. Qed.
Create HintDb noab.
#[global] Hint Resolve NoAb_ret NoAb_read NoAb_throw NoAb_oob : noab.
Ltac noabt := repeat first [solve [auto with noab]|apply NoAb_bind; [|intros]|apply NoAb_if].
Lemma NoAb_bool : NoAb dec_bool. Proof. unfold dec_bool. noabt. Qed.
Lemma NoAb_byte : NoAb dec_byte. Proof. apply NoAb_read. Qed.
Lemma NoAb_u16 : NoAb dec_u16. Proof. unfold dec_u16. noabt. Qed.
Lemma NoAb_32 : NoAb rd32. Proof. unfold rd32. noabt. Qed.
Lemma NoAb_64 : NoAb rd64. Proof. unfold rd64. noabt. Qed.
#[global] Hint Resolve NoAb_bool NoAb_byte NoAb_u16 NoAb_32 NoAb_64 : noab.
Lemma NoAb_i32 : NoAb dec_i32. Proof. unfold dec_i32. noabt. Qed.
Lemma NoAb_u32 : NoAb dec_u32. Proof. apply NoAb_32. Qed.
Lemma NoAb_status : NoAb dec_status. Proof. apply NoAb_32. Qed.
Lemma NoAb_n n : NoAb (rdn n). Proof. induction n; cbn [rdn]; noabt. Qed.
#[global] Hint Resolve NoAb_i32 NoAb_u32 NoAb_n NoAb_status : noab.
Lemma NoAb_datetime : NoAb dec_datetime. Proof. unfold dec_datetime, dec_i64. noabt. Qed.
Lemma NoAb_str o : NoAb (dec_string o). Proof. unfold dec_string. noabt. Qed.
Lemma NoAb_bstr o : NoAb (dec_bstring o). Proof. unfold dec_bstring. noabt. Qed.
Lemma NoAb_opt {A} (d : rd A) : NoAb d -> NoAb (dec_opt d). Proof. intros. unfold dec_opt. noabt. Qed.
Lemma NoAb_when {A} c (d : rd A) o : NoAb d -> NoAb (when_d c d o). Proof. intros. unfold when_d. apply NoAb_if; [now apply NoAb_opt|auto with noab]. Qed.
Lemma NoAb_each {A} (d : A -> rd A) l : (forall x, NoAb (d x)) -> NoAb (dec_each d l).
Proof. intros H. induction l; cbn [dec_each]; noabt. Qed.
Lemma NoAb_fresh {A} (d : rd A) x : NoAb d -> NoAb (fresh d x). Proof. auto. Qed.
Lemma NoAb_arr {A} d0 (d : A -> rd A) o : (forall x, NoAb (d x)) -> NoAb (dec_arr d0 d o).
Proof. intros H. unfold dec_arr. noabt. now apply NoAb_each. Qed.
#[global] Hint Resolve NoAb_datetime NoAb_str NoAb_bstr NoAb_opt NoAb_when NoAb_each NoAb_fresh NoAb_arr : noab.
Lemma NoAb_guid o : NoAb (dec_guid o). Proof. unfold dec_guid. noabt. Qed.
Lemma NoAb_diag_f n : forall o, NoAb (dec_diag_f n o).
Proof. induction n as [|n IH]; intros [a b c d e f g]; cbn [dec_diag_f]; [auto with noab|]. noabt. Qed.
Lemma NoAb_diag o : NoAb (dec_diag o).
Proof. intros b. apply NoAb_diag_f. Qed.
Lemma NoAb_qname o : NoAb (dec_qname o). Proof. unfold dec_qname. noabt. Qed.
Lemma NoAb_ltext o : NoAb (dec_ltext o). Proof. unfold dec_ltext. noabt. Qed.
#[global] Hint Resolve NoAb_guid NoAb_diag NoAb_qname NoAb_ltext : noab.
Lemma NoAb_mhdr o : NoAb (dec_mhdr o). Proof. unfold dec_mhdr. noabt. Qed.
#[global] Hint Resolve NoAb_mhdr : noab.
Lemma NoAb_uhdr o : NoAb (dec_uhdr o). Proof. unfold dec_uhdr. noabt. Qed.
#[global] Hint Resolve NoAb_uhdr : noab.
Lemma NoAb_hello o : NoAb (dec_hello o). Proof. unfold dec_hello. noabt. Qed.
#[global] Hint Resolve NoAb_hello : noab.
Lemma NoAb_ack : NoAb dec_ack. Proof. unfold dec_ack. noabt. Qed.
#[global] Hint Resolve NoAb_ack : noab.
Lemma NoAb_errmsg o : NoAb (dec_errmsg o). Proof. unfold dec_errmsg. noabt. Qed.
#[global] Hint Resolve NoAb_errmsg : noab.
Lemma NoAb_rhello o : NoAb (dec_rhello o). Proof. unfold dec_rhello. noabt. Qed.
#[global] Hint Resolve NoAb_rhello : noab.
Lemma NoAb_sechdr o : NoAb (dec_sechdr o). Proof. unfold dec_sechdr. noabt. Qed.
#[global] Hint Resolve NoAb_sechdr : noab.
Lemma NoAb_tokhdr : NoAb dec_tokhdr. Proof. unfold dec_tokhdr. noabt. Qed.
#[global] Hint Resolve NoAb_tokhdr : noab.
Lemma NoAb_seqhdr : NoAb dec_seqhdr. Proof. unfold dec_seqhdr. noabt. Qed.
#[global] Hint Resolve NoAb_seqhdr : noab.

(** ** The encoder of expanded node ids *)
Definition St (b : sdu) (l : list Z) : option sdu := if fits b l then Some (put b l) else None.
Definition via (o : option sdu) (c : wr) : option sdu := match o with Some b' => c b' | None => None end.
Lemma St_wr b e l l' : hok b -> Wr e l' -> via (St b l) e = St b (l ++ l').
Proof.
  intros Hb W. unfold St, via. rewrite fits_app by auto. destruct (fits b l) eqn:F; cbn [andb]; [|reflexivity].
  rewrite W by now apply put_hok. now rewrite put_app.
Qed.
Lemma upd_mid (a : list Z) m r x : upd (a ++ m :: r) (length a) x = a ++ x :: r.
Proof. induction a as [|y a IH]; cbn; [reflexivity|]. now rewrite IH. Qed.
Lemma St_or_head b m r bit : hok b -> via (St b (m :: r)) (or_at (k_head b) bit) = St b (Z.lor m bit :: r).
Proof.
  intros Hb. unfold St, via. replace (fits b (Z.lor m bit :: r)) with (fits b (m :: r)) by reflexivity.
  destruct (fits b (m :: r)) eqn:F; [|reflexivity]. unfold or_at, put. cbn [k_pkt k_tail k_head].
  assert (L : length (firstn (k_head b) (k_pkt b)) = k_head b) by (rewrite firstn_length; unfold hok in Hb; lia).
  change ((m :: r) ++ ?q) with (m :: (r ++ q)). rewrite nth_error_app2 by lia. rewrite L, Nat.sub_diag. cbn [nth_error].
  pose proof (upd_mid (firstn (k_head b) (k_pkt b)) m (r ++ skipn (k_head b + length (m :: r)) (k_pkt b)) (Z.lor m bit)) as U.
  rewrite L in U. rewrite U. reflexivity.
Qed.
Definition ored (b : sdu) (t : nat) (bit : Z) : sdu := mkSdu (k_tail b) (k_head b) (upd (k_pkt b) t (Z.lor (nth t (k_pkt b) 0) bit)).
Lemma firstn_upd (p : list Z) t n x : (t < n)%nat -> firstn n (upd p t x) = upd (firstn n p) t x.
Proof. revert p n. induction t as [|t IH]; intros [|y p] [|n] H; try lia; cbn; auto. f_equal. apply IH. lia. Qed.
Lemma skipn_upd (p : list Z) t n x : (t < n)%nat -> skipn n (upd p t x) = skipn n p.
Proof. revert p n. induction t as [|t IH]; intros [|y p] [|n] H; try lia; cbn; auto. apply IH. lia. Qed.
Lemma upd_app1 (p q : list Z) t x : (t < length p)%nat -> upd (p ++ q) t x = upd p t x ++ q.
Proof. revert p. induction t as [|t IH]; intros [|y p] H; cbn in *; try lia; auto. f_equal. apply IH. lia. Qed.
Lemma upd_len (p : list Z) t x : length (upd p t x) = length p.
Proof. revert p. induction t as [|t IH]; intros [|y p]; cbn; auto. Qed.
Lemma St_or_back b l t bit : hok b -> (t < k_head b)%nat -> via (St b l) (or_at t bit) = St (ored b t bit) l.
Proof.
  intros Hb Ht. unfold St, via. replace (fits (ored b t bit) l) with (fits b l) by (unfold fits, ored; cbn; now rewrite upd_len).
  destruct (fits b l) eqn:F; [|reflexivity]. unfold or_at, put, ored. cbn [k_pkt k_tail k_head].
  assert (L : length (firstn (k_head b) (k_pkt b)) = k_head b) by (rewrite firstn_length; unfold hok in Hb; lia).
  rewrite nth_error_app1 by lia. rewrite firstn_upd by lia. rewrite skipn_upd by lia.
  assert (N : nth_error (firstn (k_head b) (k_pkt b)) t = Some (nth t (k_pkt b) 0)).
  { rewrite (nth_firstn _ (k_pkt b) t (k_head b)) by (try lia; rewrite firstn_firstn; now rewrite Nat.min_id).
    apply nth_error_nth'. unfold hok in Hb. lia. }
  rewrite N. rewrite upd_app1 by lia. reflexivity.
Qed.
Lemma ored_hok b t bit : hok b -> hok (ored b t bit).
Proof. unfold hok, ored. cbn. now rewrite upd_len. Qed.
Lemma xmask_1 v : wf_xnodeid v -> has (xnodeid_mask v) 1 = is_some (xn_uri v) /\ has (xnodeid_mask v) 2 = is_some (xn_srv v).
Proof.
  intros (_ & H & _). unfold xnodeid_mask. rewrite ostr_nonempty by auto.
  destruct (bits2 (is_some (xn_uri v)) (is_some (xn_srv v))) as (-> & _ & -> & ->). auto.
Qed.
Lemma enc_xnodeid_via v b : wf_xnodeid v -> enc_xnodeid v b =
  via (via (via (via (enc_nodeid (xn_id v) b) (if is_some (xn_uri v) then or_at (k_tail b) 128 else nop))
                (when_e (is_some (xn_uri v)) enc_string (xn_uri v)))
           (if is_some (xn_srv v) then or_at (k_tail b) 64 else nop))
      (when_e (is_some (xn_srv v)) enc_32 (xn_srv v)).
Proof.
  intros H. destruct (xmask_1 v H) as [M1 M2]. unfold enc_xnodeid, seq2, via. rewrite M1, M2.
  destruct (enc_nodeid (xn_id v) b) as [b1|]; [|reflexivity].
  destruct (xn_uri v) as [u|]; cbn [is_some]; unfold nop, when_e.
  - destruct (or_at (k_tail b) 128 b1) as [b2|]; [|reflexivity]. cbn [enc_opt].
    destruct (enc_string u b2) as [b3|]; [|reflexivity]. destruct (xn_srv v); cbn [is_some]; reflexivity.
  - destruct (xn_srv v); cbn [is_some]; reflexivity.
Qed.
Lemma lor_flag m : 0 <= m <= 5 -> Z.lor m 128 = m + 128 /\ Z.lor m 64 = m + 64 /\ Z.lor (m + 128) 64 = m + 192.
Proof. intros H. assert (m = 0 \/ m = 1 \/ m = 2 \/ m = 3 \/ m = 4 \/ m = 5) as K by lia. repeat (destruct K as [->|K]; [repeat split|]); subst m; repeat split. Qed.
Lemma enc_xnodeid_front v b : wf_xnodeid v -> hok b -> k_tail b = k_head b -> enc_xnodeid v b = St b (s_xnodeid v).
Proof.
  intros H Hb T. rewrite enc_xnodeid_via by auto. rewrite T. destruct H as (H1 & H2 & H3).
  rewrite s_xnodeid_flag. destruct (s_nodeid_cons (xn_id v)) as (m & r & E & Hm). rewrite E. cbn [flagged].
  assert (W : enc_nodeid (xn_id v) b = St b (m :: r)) by (rewrite <- E; now apply (W_nodeid (xn_id v) H1 b)).
  rewrite W. destruct (lor_flag m Hm) as (L1 & L2 & L3).
  assert (Nop : forall l, via (St b l) nop = St b l) by (intros; unfold via, nop; now destruct (St b l)).
  destruct (xn_uri v) as [u|]; destruct (xn_srv v) as [i|]; cbn [is_some s_opt when_e enc_opt] in *.
  - rewrite St_or_head, L1 by auto. rewrite (St_wr b _ _ (s_str u)) by (auto; apply W_str; apply H2). cbn [app].
    rewrite St_or_head, L3 by auto. rewrite (St_wr b _ _ (s_4 i)) by (auto; apply W_32).
    rewrite <- app_comm_cons, <- app_assoc. do 2 f_equal. 
  - rewrite St_or_head, L1 by auto. rewrite (St_wr b _ _ (s_str u)) by (auto; apply W_str; apply H2). rewrite !Nop. cbn [app].
    rewrite app_nil_r. do 2 f_equal.
  - rewrite !Nop. rewrite St_or_head, L2 by auto. rewrite (St_wr b _ _ (s_4 i)) by (auto; apply W_32). cbn [app]. do 2 f_equal.
  - rewrite !Nop. cbn [app]. rewrite app_nil_r. do 2 f_equal. lia.
Qed.
Definition xflags (v : xnodeid) (b : sdu) : sdu :=
  let b1 := if is_some (xn_uri v) then ored b (k_tail b) 128 else b in
  if is_some (xn_srv v) then ored b1 (k_tail b) 64 else b1.
Lemma enc_xnodeid_back v b : wf_xnodeid v -> hok b -> (k_tail b < k_head b)%nat ->
  enc_xnodeid v b = St (xflags v b) (s_nodeid (xn_id v) ++ s_opt s_str (xn_uri v) ++ s_opt s_4 (xn_srv v)).
Proof.
  intros H Hb T. rewrite enc_xnodeid_via by auto. destruct H as (H1 & H2 & H3). unfold xflags.
  assert (W : enc_nodeid (xn_id v) b = St b (s_nodeid (xn_id v))) by now apply (W_nodeid (xn_id v) H1 b).
  rewrite W. assert (Nop : forall c l, via (St c l) nop = St c l) by (intros c l; unfold via, nop; now destruct (St c l)).
  destruct (xn_uri v) as [u|]; destruct (xn_srv v) as [i|]; cbn [is_some s_opt when_e enc_opt] in *; rewrite ?Nop;
    rewrite ?St_or_back by auto.
  - rewrite (St_wr _ _ _ (s_str u)) by (try apply ored_hok; auto; apply W_str; apply H2).
    rewrite St_or_back by (try apply ored_hok; auto). rewrite (St_wr _ _ _ (s_4 i)) by (try (do 2 apply ored_hok); auto; apply W_32).
    now rewrite <- app_assoc.
  - rewrite (St_wr _ _ _ (s_str u)) by (try apply ored_hok; auto; apply W_str; apply H2). rewrite ?Nop. now rewrite app_nil_r.
  - rewrite (St_wr _ _ _ (s_4 i)) by (try (do 2 apply ored_hok); try apply ored_hok; auto; apply W_32). now cbn [app].
  - cbn [app]. now rewrite !app_nil_r.
Qed.

(** ** From octets written to values read *)
Lemma put_holds b l : hok b -> fits b l = true -> holds (put b l) (k_head b) l.
Proof.
  intros Hb F. apply holds_iff. unfold put. cbn [k_pkt].
  assert (L : length (firstn (k_head b) (k_pkt b)) = k_head b) by (rewrite firstn_length; unfold hok in Hb; lia).
  rewrite skipn_app, L, Nat.sub_diag. rewrite skipn_all2 by lia. cbn [app skipn]. eauto.
Qed.
Lemma holds_indep b b' i l : k_pkt b = k_pkt b' -> holds b i l -> holds b' i l.
Proof. unfold holds. now intros ->. Qed.
Lemma wr_rd {A} (e : wr) (d : rd A) l x : Wr e l -> Rd d l x -> roundtrips e d x.
Proof.
  intros W R b (_ & _ & Hb) b' E. rewrite W in E by (unfold hok; lia). destruct (fits b l) eqn:F; [|discriminate]. injection E as <-.
  assert (hok b) by (unfold hok; lia). split.
  - rewrite (R (mkSdu (k_head b) (k_head (put b l)) (k_pkt (put b l)))).
    + cbn [k_tail k_head k_pkt]. reflexivity.
    + cbn [k_tail]. eapply holds_indep; [|apply put_holds; eauto]. reflexivity.
  - cbn [put k_tail]. split; [reflexivity|]. unfold put. cbn [k_pkt]. rewrite firstn_app, firstn_firstn, Nat.min_id, firstn_length.
    replace (k_head b - Nat.min (k_head b) (length (k_pkt b)))%nat with 0%nat by lia. cbn [firstn]. apply app_nil_r.
Qed.
Lemma Loc_inside {A} (d : rd A) : Loc d -> inside d.
Proof.
  intros [HA HL] b x b' E. destruct (HA _ _ _ E) as (T & H & P). repeat split; auto. intros Hi b2 T2 H2 F.
  rewrite <- H2. apply (HL b x b' b2 E T2). eapply firstn_le; eauto.
Qed.
Lemma Wr_needs e l : Wr e l -> needs e (length l).
Proof.
  intros W b (_ & _ & Hb). rewrite W by (unfold hok; lia). unfold fits.
  destruct (Nat.leb_spec (k_head b + length l) (length (k_pkt b))); split; intros; try lia; congruence.
Qed.
Lemma nodeid_abort o b : dec_nodeid o b = DAbort <-> exists e, nth_error (k_pkt b) (k_tail b) = Some e /\ (Z.land e 15 < 0 \/ 5 < Z.land e 15).
Proof.
  unfold dec_nodeid, bind at 1, dec_byte at 1, read at 1. destruct (nth_error (k_pkt b) (k_tail b)) as [e|]; [|split; [discriminate|intros (e & E & _); discriminate]].
  split.
  - intros H. exists e. split; [reflexivity|]. destruct (Z.land e 15) as [|p|p]; [exfalso| |lia].
    + revert H. change ((do i <- dec_byte; ret (mkNid (n_ns o) (IdNum i))) (mkSdu (S (k_tail b)) (k_head b) (k_pkt b)) <> DAbort).
      assert (N : NoAb (do i <- dec_byte; ret (mkNid (n_ns o) (IdNum i)))) by noabt. apply N.
    + right. destruct (Z.lt_decidable 5 (Z.pos p)) as [Y|N]; [exact Y|exfalso].
      assert (Z.pos p = 1 \/ Z.pos p = 2 \/ Z.pos p = 3 \/ Z.pos p = 4 \/ Z.pos p = 5) as K by lia.
      assert (p = 1 \/ p = 2 \/ p = 3 \/ p = 4 \/ p = 5)%positive as Kp by lia. clear K N. revert H.
      destruct Kp as [->|[->|[->|[->| ->]]]]; match goal with |- ?f ?s = _ -> _ => assert (A : NoAb f) by noabt; intros Q; exact (A _ Q) end.
  - intros (e' & E & H). injection E as <-. destruct (Z.land e 15) as [|p|p]; [lia| |reflexivity].
    destruct p as [p|p|]; [destruct p as [p|p|]|destruct p as [p|p|]|]; try (destruct p); try lia; reflexivity.
Qed.

(** ** Expanded node ids after other content *)
Lemma ored_nth b t bit : (t < length (k_pkt b))%nat -> nth t (k_pkt (ored b t bit)) 0 = Z.lor (nth t (k_pkt b) 0) bit.
Proof. intros H. unfold ored. cbn [k_pkt]. revert H. generalize (Z.lor (nth t (k_pkt b) 0) bit). generalize (k_pkt b). intros p x. revert p.
  induction t as [|t IH]; intros [|y p] H; cbn in *; try lia; auto. apply IH. lia. Qed.
Lemma xflags_hok v b : hok b -> hok (xflags v b).
Proof. unfold xflags. intros. destruct (is_some (xn_uri v)), (is_some (xn_srv v)); repeat apply ored_hok; auto. Qed.
Lemma xflags_cur v b : k_head (xflags v b) = k_head b /\ k_tail (xflags v b) = k_tail b /\ length (k_pkt (xflags v b)) = length (k_pkt b).
Proof. unfold xflags. destruct (is_some (xn_uri v)), (is_some (xn_srv v)); cbn; rewrite ?upd_len; auto. Qed.
Lemma xflags_nth v b : (k_tail b < length (k_pkt b))%nat ->
  nth (k_tail b) (k_pkt (xflags v b)) 0 = Z.lor (nth (k_tail b) (k_pkt b) 0) ((if is_some (xn_uri v) then 128 else 0) + (if is_some (xn_srv v) then 64 else 0)).
Proof.
  intros H. unfold xflags. destruct (is_some (xn_uri v)), (is_some (xn_srv v)).
  - rewrite ored_nth by (cbn; rewrite upd_len; auto). rewrite ored_nth by auto. now rewrite <- Z.lor_assoc.
  - now rewrite ored_nth.
  - now rewrite ored_nth.
  - now rewrite Z.lor_0_r.
Qed.
Lemma nth_put_low b l i : hok b -> (i < k_head b)%nat -> nth i (k_pkt (put b l)) 0 = nth i (k_pkt b) 0.
Proof.
  intros Hb H. unfold put. cbn [k_pkt]. unfold hok in Hb. rewrite app_nth1 by (rewrite firstn_length; lia).
  rewrite <- (firstn_skipn (k_head b) (k_pkt b)) at 2. rewrite app_nth1 by (rewrite firstn_length; lia). reflexivity.
Qed.
Lemma xnodeid_wrong v b b' : wf_xnodeid v -> xn_uri v <> None \/ xn_srv v <> None -> sdu_ok b -> (k_tail b < k_head b)%nat -> enc_xnodeid v b = Some b' ->
  nth (k_tail b) (k_pkt b') 0 =
    Z.lor (nth (k_tail b) (k_pkt b) 0) ((if is_some (xn_uri v) then 128 else 0) + (if is_some (xn_srv v) then 64 else 0)) /\
  exists b'', dec_xnodeid xnodeid0 (mkSdu (k_head b) (k_head b') (k_pkt b')) = DOk (mkXn (xn_id v) None None) b'' /\
    (k_tail b'' < k_head b')%nat.
Proof.
  intros H F (_ & _ & Hb) T E. assert (Hk : hok b) by (unfold hok; lia). rewrite enc_xnodeid_back in E by auto.
  unfold St in E. set (l := s_nodeid (xn_id v) ++ s_opt s_str (xn_uri v) ++ s_opt s_4 (xn_srv v)) in *.
  destruct (fits (xflags v b) l) eqn:Fi; [|discriminate]. injection E as <-.
  destruct (xflags_cur v b) as (C1 & C2 & C3). split.
  - rewrite nth_put_low by (try apply xflags_hok; auto; lia). apply xflags_nth. lia.
  - assert (P : wf_plain (mkXn (xn_id v) None None)) by (split; [apply H|auto]).
    pose proof (put_holds _ l (xflags_hok v b Hk) Fi) as Q. unfold l in Q at 2. apply holds_app in Q as [Q _].
    eexists. split.
    + pose proof (R_plain _ P (mkSdu (k_head b) (k_head (put (xflags v b) l)) (k_pkt (put (xflags v b) l)))) as R.
      rewrite (s_plain _ P) in R. cbn [xn_id] in R. apply R. cbn [k_tail]. rewrite C1 in Q. exact Q.
    + cbn [k_tail put k_head]. rewrite C1. unfold l. rewrite !app_length.
      assert (0 < length (s_opt s_str (xn_uri v)) + length (s_opt s_4 (xn_srv v)))%nat; [|lia].
      destruct (xn_uri v) as [u|]; [cbn [s_opt]; destruct u; cbn [s_str]; rewrite ?app_length; unfold s_4; rewrite le_bytes_length; lia|].
      destruct (xn_srv v) as [i|]; [cbn [s_opt]; unfold s_4; rewrite le_bytes_length; lia|]. destruct F; congruence.
Qed.

(** ** Variants that do not survive *)
Lemma variant_lost :
  (forall x d b b', wf_vval x -> recoverable x = false -> (forall e, x <> VXml e) -> sdu_ok b -> enc_variant (mkVar (Some x) d) b = Some b' ->
     dec_variant variant0 (mkSdu (k_head b) (k_head b') (k_pkt b')) = DAbort) /\
  (forall e, roundtrips (enc_variant (mkVar (Some (VXml e)) None)) (dec_variant variant0) (mkVar (Some (VXml 0)) None)) /\
  (forall x d, wf_vval x -> recoverable x = true -> roundtrips (enc_variant (mkVar (Some x) d)) (dec_variant variant0) (mkVar (Some x) None)).
Proof.
  split; [|split].
  - intros x d b b' H C NX (_ & _ & Hb) E.
    assert (Hk : hok b) by (unfold hok; lia).
    rewrite (W_variant (mkVar (Some x) d) H b Hk) in E. unfold s_variant in E. cbn [vr_val] in E.
    destruct (fits b (s_vval x)) eqn:F; [|discriminate]. injection E as <-.
    pose proof (put_holds b _ Hk F) as Q.
    assert (G : forall m r, s_vval x = m :: r -> peek (mkSdu (k_head b) (k_head (put b (s_vval x))) (k_pkt (put b (s_vval x)))) = DOk m (mkSdu (k_head b) (k_head (put b (s_vval x))) (k_pkt (put b (s_vval x))))).
    { intros m r Em. apply (peek_holds _ m r). cbn [k_tail]. rewrite <- Em. exact Q. }
    revert G. generalize (put b (s_vval x)). intros b1 G.
    destruct x; try discriminate C; try (exfalso; eapply NX; reflexivity);
    (specialize (G _ _ eq_refl); unfold dec_variant, bind at 1, dec_byte, read; unfold peek in G;
     destruct (nth_error (k_pkt (mkSdu (k_head b) (k_head b1) (k_pkt b1))) (k_tail (mkSdu (k_head b) (k_head b1) (k_pkt b1)))) as [z|]; [|discriminate G];
     injection G as ->; reflexivity).
  - intros e. assert (V : wf_variant (mkVar (Some (VXml 0)) None)) by (split; [split; [cbn; unfold is_byte; lia|reflexivity]|reflexivity]).
    apply (wr_rd _ _ (s_variant (mkVar (Some (VXml 0)) None))); [|now apply R_variant].
    exact (W_variant (mkVar (Some (VXml 0)) None) (proj1 (proj1 V))).
  - intros x d H C. assert (V : wf_variant (mkVar (Some x) None)) by (split; [split; auto|reflexivity]).
    apply (wr_rd _ _ (s_variant (mkVar (Some x) None))); [|now apply R_variant].
    exact (W_variant (mkVar (Some x) d) H).
Qed.
