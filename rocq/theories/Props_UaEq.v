(** C153 - C155: comparing OPC UA values. *)
From Verif Require Import Base ModbusCodecSpec UaCodecModel UaCodecSpec UaCodecProofs UaCodecLocal UaEqModel UaEqSpec UaEqProofs.
Local Open Scope Z_scope.
Ltac split_all := repeat match goal with |- (_ /\ _) => split end.

(** C153.  All built-in structures but variants and data values, see C154.  Optional members count as they are, except in localized
    texts, where a missing text and an empty one are the same. *)
Theorem C153_compare :
  (forall a b, str_eq a b = true <-> a = b) /\
  (forall a b, guid_eq a b = true <-> a = b) /\
  (forall a b, nodeid_eq a b = true <-> a = b) /\
  (forall a b, xnodeid_eq a b = true <-> a = b) /\
  (forall a b, qname_eq a b = true <-> a = b) /\
  (forall a b, extobj_eq a b = true <-> a = b) /\
  (forall a b, diag_eq a b = true <-> a = b) /\
  (forall a b, ltext_eq a b = true <-> same_text a b).
Proof.
  split_all; intros a b; auto using str_spec, guid_spec, nodeid_spec, xnodeid_spec, qname_spec, extobj_spec, diag_spec, ltext_spec.
Qed.
Print Assumptions C153_compare.

Example C153_case :
  diag_eq (mkDiag (Some 1) None None None (Some []) None (Some diag0)) (mkDiag (Some 1) None None None (Some []) None (Some diag0)) = true /\
  diag_eq (mkDiag (Some 1) None None None (Some []) None (Some diag0)) (mkDiag (Some 1) None None None None None (Some diag0)) = false /\
  ltext_eq (mkLt None (Some [65])) (mkLt (Some []) (Some [65])) = true /\
  nodeid_eq (mkNid 1 (IdStr [65])) (mkNid 1 (IdOpq [65])) = false.
Proof. now vm_compute. Qed.

(** C154.  The comparison reads the array dimensions of both sides whether they are there or not; no part of the code ever sets
    them, and decoding does not.  So every variant a server or client decodes into a fresh object, and every data value, cannot be
    compared with anything. *)
Theorem C154_refuted :
  (forall a b, vr_dims a = None \/ vr_dims b = None -> variant_eq a b = None) /\
  (forall p v p', dec_variant variant0 p = DOk v p' -> forall w, variant_eq v w = None /\ variant_eq w v = None) /\
  (forall p v p', dec_dvalue dvalue0 p = DOk v p' -> forall w, dvalue_eq v w = None /\ dvalue_eq w v = None) /\
  (exists p v p', dec_variant variant0 p = DOk v p').
Proof.
  assert (U : forall a b, vr_dims a = None \/ vr_dims b = None -> variant_eq a b = None).
  { intros [x d] [y e] H. cbn in H. unfold variant_eq. cbn. destruct d, e; destruct H; easy. }
  assert (D : forall o p v p', dec_variant o p = DOk v p' -> vr_dims v = vr_dims o).
  { intros o p v p' H. unfold dec_variant, bind in H. destruct (dec_byte p) as [m b1| | |]; try easy.
    destruct (m =? 0); [now inversion H|]. destruct (has m 128).
    - repeat match type of H with
        | match ?t with _ => _ end _ = _ => destruct t; try discriminate H
        | match ?t with _ => _ end = _ => destruct t; try discriminate H
      end; inversion H; reflexivity.
    - repeat match type of H with
        | match ?t with _ => _ end _ = _ => destruct t; try discriminate H
        | match ?t with _ => _ end = _ => destruct t; try discriminate H
      end; inversion H; reflexivity. }
  assert (B : forall A C (m : rd A) (k : A -> rd C) b x b', bind m k b = DOk x b' -> exists a b1, m b = DOk a b1 /\ k a b1 = DOk x b').
  { intros A C m k b x b' H. unfold bind in H. destruct (m b) as [a b1| | |] eqn:E; try easy. eauto. }
  split_all.
  - exact U.
  - intros p v p' H w. apply D in H. cbn in H. split; apply U; auto.
  - intros p v p' H w. assert (E : vr_dims (dv_val v) = None).
    { unfold dec_dvalue in H. apply B in H as (m & b1 & _ & H). apply B in H as (x & b2 & H1 & H).
      repeat (apply B in H as (? & ? & _ & H)). inversion H; subst. cbn [dv_val].
      destruct (has m 1); [now apply D in H1|now inversion H1]. }
    unfold dvalue_eq. rewrite !U by auto. auto.
  - exists (mkSdu 0 2 [1; 1]). do 2 eexists. vm_compute. reflexivity.
Qed.
Print Assumptions C154_refuted.

(** With array dimensions on both sides the comparison is defined, and it tells whether the contents and the dimensions are the
    same; numbers are compared as numbers. *)
Theorem C154_defined_partial :
  (forall a b, variant_eq a b <> None <-> vr_dims a <> None /\ vr_dims b <> None) /\
  (forall a b, variant_eq a b = Some true <-> vr_dims a <> None /\ vr_dims a = vr_dims b /\
     match vr_val a, vr_val b with Some x, Some y => same_content x y | None, None => True | _, _ => False end) /\
  (forall a b, dvalue_eq a b = Some true <-> variant_eq (dv_val a) (dv_val b) = Some true /\ dv_st a = dv_st b /\ dv_sts a = dv_sts b /\
     dv_spico a = dv_spico b /\ dv_vts a = dv_vts b /\ dv_vpico a = dv_vpico b).
Proof.
  split_all.
  - intros [x d] [y e]. unfold variant_eq. cbn. destruct d, e; split; intros H; try easy; now destruct H.
  - intros [x d] [y e]. unfold variant_eq. cbn. destruct d as [d|], e as [e|];
      try (split; [discriminate|intros (H1 & H2 & _); congruence]).
    transitivity ((match x, y with Some u, Some w => vval_eq u w | _, _ => negb (is_some x || is_some y) end && list_eq Z.eqb d e) = true);
      [split; congruence|].
    rewrite andb_true_iff, zl_spec. destruct x as [u|], y as [w|]; cbn; rewrite ?vval_spec;
      (split; [intros [H ->]; now repeat split|intros (_ & [= ->] & H); now split]).
  - intros a b. unfold dvalue_eq. destruct (variant_eq _ _) as [v|]; [|split; [discriminate|intros [H _]; discriminate]].
    transitivity ((v && opt_eq Z.eqb (dv_st a) (dv_st b) && opt_eq Z.eqb (dv_sts a) (dv_sts b) && opt_eq Z.eqb (dv_spico a) (dv_spico b)
      && opt_eq Z.eqb (dv_vts a) (dv_vts b) && opt_eq Z.eqb (dv_vpico a) (dv_vpico b)) = true); [split; congruence|].
    rewrite !andb_true_iff, !oz_spec. split; [intros [[[[[-> H2] H3] H4] H5] H6]; now repeat split|].
    intros ([= ->] & H). tauto.
Qed.
Print Assumptions C154_defined_partial.

(** "The same content" is symmetric and transitive, and every content without a NaN is the same as itself; one with a NaN never is. *)
Theorem C154_equivalence_partial :
  (forall a b, vval_eq a b = vval_eq b a) /\
  (forall a b c, vval_eq a b = true -> vval_eq b c = true -> vval_eq a c = true) /\
  (forall a, vval_eq a a = true <-> no_nan a).
Proof.
  assert (Sy : forall e m x y, same_number e m x y -> same_number e m y x) by (unfold same_number; intros; intuition).
  assert (Tr : forall e m x y z, same_number e m x y -> same_number e m y z -> same_number e m x z).
  { unfold same_number. intros e m x y z (H1 & H2 & H3) (H4 & H5 & H6). repeat split; auto.
    destruct H3 as [->|[K1 K2]]; [assumption|]. destruct H6 as [<-|[K3 K4]]; auto. }
  assert (F2s : forall A (R : A -> A -> Prop), (forall x y, R x y -> R y x) -> forall a b, Forall2 R a b -> Forall2 R b a).
  { intros A R HR a b H. induction H; constructor; auto. }
  assert (F2t : forall A (R : A -> A -> Prop), (forall x y z, R x y -> R y z -> R x z) -> forall a b c, Forall2 R a b -> Forall2 R b c -> Forall2 R a c).
  { intros A R HR a b c H. revert c. induction H; intros c K; inversion K; subst; constructor; eauto. }
  assert (S1 : forall a b, same_content a b -> same_content b a).
  { intros [] [] H; cbn in H |- *; try discriminate H; try (now symmetry in H); try (now apply Sy); unfold same_text in *;
      try (destruct H; split; congruence); try (eapply F2s; [|exact H]; eauto; intros x y []; split; congruence). }
  split_all.
  - intros a b. apply Bool.eq_iff_eq_true. rewrite !vval_spec. split; apply S1.
  - intros a b c. rewrite !vval_spec. intros H K.
    destruct a, b; cbn in H; try discriminate H; try (injection H as ->; exact K); destruct c; cbn in K |- *; try discriminate K;
      unfold same_text in *; try (eapply Tr; eassumption); try (destruct H, K; split; congruence);
      eapply F2t; try eassumption; eauto; intros x y z [] []; split; congruence.
  - intros a. rewrite vval_spec.
    assert (N : forall e m x, same_number e m x x <-> ~ not_a_number e m x) by (unfold same_number; intros; tauto).
    assert (FN : forall e m l, Forall2 (same_number e m) l l <-> Forall (fun y => ~ not_a_number e m y) l).
    { intros e m l. induction l as [|x l IH]; [split; constructor|]. split; intros H.
      - inversion H as [|? ? ? ? H1 H2]; subst. constructor; [exact (proj1 (N _ _ _) H1)|exact (proj1 IH H2)].
      - inversion H as [|? ? H1 H2]; subst. constructor; [exact (proj2 (N _ _ _) H1)|exact (proj2 IH H2)]. }
    destruct a; cbn [same_content no_nan]; try apply N; try apply FN; (split; [easy|intros _]); try reflexivity; try (now split).
    induction v; constructor; auto. now split.
Qed.
Print Assumptions C154_equivalence_partial.

Example C154_case :
  variant_eq (mkVar (Some (VFloat 0)) (Some [1])) (mkVar (Some (VFloat 2147483648)) (Some [1])) = Some true /\
  variant_eq (mkVar (Some (VFloat 2143289344)) (Some [])) (mkVar (Some (VFloat 2143289344)) (Some [])) = Some false /\
  variant_eq (mkVar (Some (VInt32 5)) None) (mkVar (Some (VInt32 5)) None) = None /\
  dvalue_eq dvalue0 dvalue0 = None.
Proof. now vm_compute. Qed.

(** C155.  Localized texts in all forms; identifiers, names and diagnostic information; extension objects whose body is absent or
    not empty. *)
Theorem C155_roundtrip_equal_partial :
  (forall v, wf_opt wf_str (lt_locale v) -> wf_opt wf_str (lt_text v) ->
     exists w, roundtrips (enc_ltext v) (dec_ltext ltext0) w /\ ltext_eq w v = true) /\
  (forall v, wf_guid v -> exists w, roundtrips (enc_guid v) (dec_guid guid0) w /\ guid_eq w v = true) /\
  (forall v, wf_nodeid v -> exists w, roundtrips (enc_nodeid v) (dec_nodeid nodeid0) w /\ nodeid_eq w v = true) /\
  (forall v, wf_qname v -> exists w, roundtrips (enc_qname v) (dec_qname qname0) w /\ qname_eq w v = true) /\
  (forall v, wf_diag v -> exists w, roundtrips (enc_diag v) (dec_diag diag0) w /\ diag_eq w v = true) /\
  (forall v, wf_extobj v -> exists w, roundtrips (enc_extobj v) (dec_extobj extobj0) w /\ extobj_eq w v = true).
Proof.
  split_all.
  - intros [a b] Ha Hb. cbn in Ha, Hb.
    set (norm := fun o : option ustr => match o with Some [] => None | _ => o end).
    assert (L : wf_ltext (mkLt (norm a) (norm b))).
    { split; cbn; [destruct a as [[|x a]|]|destruct b as [[|x b]|]]; cbn in *; auto; split; auto; discriminate. }
    exists (mkLt (norm a) (norm b)). split.
    + assert (E : enc_ltext (mkLt a b) = enc_ltext (mkLt (norm a) (norm b))).
      { unfold enc_ltext, ltext_mask. cbn [lt_locale lt_text].
        destruct a as [[|x a]|], b as [[|y b]|]; unfold norm; cbn [nonempty]; rewrite ?andb_false_r; reflexivity. }
      rewrite E. exact (wr_rd _ _ _ _ (W_ltext _ L) (R_ltext _ L)).
    + apply ltext_spec. split; cbn; [destruct a as [[|x a]|]|destruct b as [[|x b]|]]; reflexivity.
  - intros v H. exists v. split; [exact (wr_rd _ _ _ _ (W_guid v H) (R_guid v H))|now apply guid_spec].
  - intros v H. exists v. split; [exact (wr_rd _ _ _ _ (W_nodeid v H) (R_nodeid v H))|now apply nodeid_spec].
  - intros v H. exists v. split; [exact (wr_rd _ _ _ _ (W_qname v H) (R_qname v H))|now apply qname_spec].
  - intros v H. exists v. split; [exact (wr_rd _ _ _ _ (W_diag v H) (R_diag v H))|now apply diag_spec].
  - intros v H. exists v. split; [exact (wr_rd _ _ _ _ (W_extobj v H) (R_extobj v H))|now apply extobj_spec].
Qed.
Print Assumptions C155_roundtrip_equal_partial.

(** An extension object with an empty body comes back without one, and these compare unequal; a decoded variant cannot be compared at
    all, see C154. *)
Theorem C155_refuted : forall n, wf_nodeid n ->
  roundtrips (enc_extobj (mkXo n (Some []))) (dec_extobj extobj0) (mkXo n None) /\ extobj_eq (mkXo n None) (mkXo n (Some [])) = false.
Proof.
  intros n H. split.
  - assert (L : wf_extobj (mkXo n None)) by (split; cbn; auto).
    change (enc_extobj (mkXo n (Some []))) with (enc_extobj (mkXo n None)).
    exact (wr_rd _ _ _ _ (W_extobj _ L) (R_extobj _ L)).
  - destruct (extobj_eq _ _) eqn:E; [|reflexivity]. apply extobj_spec in E. discriminate.
Qed.
Print Assumptions C155_refuted.

Example C155_case : wf_nodeid (mkNid 0 (IdNum 5)) /\ wf_opt wf_str (Some ([] : ustr)) /\
  ltext_eq (mkLt None (Some [65])) (mkLt (Some []) (Some [65])) = true.
Proof. unfold wf_nodeid, is_u16, is_u32, wf_opt, wf_str, bytes_ok. cbn. repeat split; try lia; constructor. Qed.
