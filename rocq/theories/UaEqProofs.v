(** Proofs about the comparison of OPC UA values. *)
From Verif Require Import Base ModbusCodecSpec UaCodecModel UaCodecSpec UaCodecProofs UaEqModel UaEqSpec.
Local Open Scope Z_scope.

Lemma list_eq_F2 {A} (e : A -> A -> bool) (R : A -> A -> Prop) : (forall x y, e x y = true <-> R x y) ->
  forall a b, list_eq e a b = true <-> Forall2 R a b.
Proof.
  intros H. induction a as [|x a IH]; intros [|y b]; cbn; split; intros K; try easy; try constructor; try inversion K; subst.
  - apply andb_true_iff in K as [K1 K2]. now apply H.
  - apply andb_true_iff in K as [K1 K2]. now apply IH.
  - apply andb_true_iff. split; [now apply H|now apply IH].
Qed.
Lemma F2_eq {A} (a b : list A) : Forall2 eq a b <-> a = b.
Proof.
  split; [intros H; induction H; now subst|intros <-]. induction a; now constructor.
Qed.
Lemma list_eq_spec {A} (e : A -> A -> bool) : (forall x y, e x y = true <-> x = y) -> forall a b, list_eq e a b = true <-> a = b.
Proof. intros H a b. rewrite (list_eq_F2 e eq H). apply F2_eq. Qed.
Lemma zeqb_spec x y : (x =? y) = true <-> x = y. Proof. apply Z.eqb_eq. Qed.
Lemma str_spec a b : str_eq a b = true <-> a = b. Proof. apply list_eq_spec, zeqb_spec. Qed.
Lemma opt_spec {A} (e : A -> A -> bool) : (forall x y, e x y = true <-> x = y) -> forall a b, opt_eq e a b = true <-> a = b.
Proof. intros H [x|] [y|]; cbn; try easy. rewrite H. split; [now intros ->|now intros [= ->]]. Qed.
Lemma zl_spec a b : list_eq Z.eqb a b = true <-> a = b. Proof. apply list_eq_spec, zeqb_spec. Qed.
Lemma oz_spec a b : opt_eq Z.eqb a b = true <-> a = b. Proof. apply opt_spec, zeqb_spec. Qed.
Lemma os_spec a b : opt_eq str_eq a b = true <-> a = b. Proof. apply opt_spec, str_spec. Qed.
Lemma bool_spec x y : Bool.eqb x y = true <-> x = y. Proof. apply Bool.eqb_true_iff. Qed.

Lemma guid_spec a b : guid_eq a b = true <-> a = b.
Proof.
  destruct a, b. unfold guid_eq. cbn. rewrite !andb_true_iff, !zeqb_spec, zl_spec.
  split; [intros [[[-> ->] ->] ->]; reflexivity|intros [= -> -> -> ->]; auto].
Qed.
Lemma idval_spec a b : idval_eq a b = true <-> a = b.
Proof.
  destruct a, b; cbn; try easy; rewrite ?zeqb_spec, ?str_spec, ?guid_spec; (split; [now intros ->|now intros [= ->]]).
Qed.
Lemma nodeid_spec a b : nodeid_eq a b = true <-> a = b.
Proof.
  destruct a, b. unfold nodeid_eq. cbn. rewrite andb_true_iff, zeqb_spec, idval_spec.
  split; [intros [-> ->]; reflexivity|intros [= -> ->]; auto].
Qed.
Lemma qname_spec a b : qname_eq a b = true <-> a = b.
Proof.
  destruct a, b. unfold qname_eq. cbn. rewrite andb_true_iff, zeqb_spec, str_spec.
  split; [intros [-> ->]; reflexivity|intros [= -> ->]; auto].
Qed.
Lemma xnodeid_spec a b : xnodeid_eq a b = true <-> a = b.
Proof.
  destruct a, b. unfold xnodeid_eq. cbn. rewrite !andb_true_iff, nodeid_spec, os_spec, oz_spec.
  split; [intros [[-> ->] ->]; reflexivity|intros [= -> -> ->]; auto].
Qed.
Lemma extobj_spec a b : extobj_eq a b = true <-> a = b.
Proof.
  destruct a, b. unfold extobj_eq. cbn. rewrite !andb_true_iff, nodeid_spec, os_spec.
  split; [intros [-> ->]; reflexivity|intros [= -> ->]; auto].
Qed.
Lemma diag_spec : forall x y, diag_eq x y = true <-> x = y.
Proof.
  fix IH 1. intros [a b c d e f g] [a' b' c' d' e' f' g'].
  change (diag_eq (mkDiag a b c d e f g) (mkDiag a' b' c' d' e' f' g')) with
    (opt_eq Z.eqb a a' && opt_eq Z.eqb b b' && opt_eq Z.eqb c c' && opt_eq Z.eqb d d' && opt_eq str_eq e e' && opt_eq Z.eqb f f' &&
     match g, g' with Some i, Some j => diag_eq i j | _, _ => negb (is_some g || is_some g') end).
  rewrite !andb_true_iff, !oz_spec, os_spec.
  assert (G : match g, g' with Some i, Some j => diag_eq i j | _, _ => negb (is_some g || is_some g') end = true <-> g = g').
  { destruct g as [i|], g' as [j|]; cbn; try easy. rewrite IH. split; [now intros ->|now intros [= ->]]. }
  rewrite G. split; [intros [[[[[[-> ->] ->] ->] ->] ->] ->]; reflexivity|intros [= -> -> -> -> -> -> ->]; tauto].
Qed.
Lemma cmp_opt_spec a b : cmp_opt a b = true <-> text_of a = text_of b.
Proof.
  assert (E : forall x : ustr, negb (Z.of_nat (length x) =? 0) = false <-> x = []).
  { intros [|z x]; cbn [length]; split; intros H; easy. }
  destruct a as [a|], b as [b|]; unfold cmp_opt, text_of.
  - rewrite str_spec. split; congruence.
  - rewrite negb_true_iff, orb_false_l. rewrite E. split; congruence.
  - rewrite negb_true_iff, orb_false_r. rewrite E. split; congruence.
  - easy.
Qed.
Lemma ltext_spec a b : ltext_eq a b = true <-> same_text a b.
Proof. unfold ltext_eq, same_text. rewrite andb_true_iff, !cmp_opt_spec. reflexivity. Qed.

(** ** Floating-point numbers *)
Lemma float_parts e m x : 0 <= e -> 0 <= m -> x mod 2 ^ (m + e) = x mod 2 ^ m + 2 ^ m * ((x / 2 ^ m) mod 2 ^ e).
Proof. intros He Hm. rewrite Z.pow_add_r by lia. apply Z.rem_mul_r; [apply Z.pow_nonzero; lia|apply Z.pow_pos_nonneg; lia]. Qed.
Lemma nan_spec e m x : 0 < e -> 0 <= m -> (2 ^ m * (2 ^ e - 1) <? x mod 2 ^ (m + e)) = true <-> not_a_number e m x.
Proof.
  intros He Hm. rewrite Z.ltb_lt, float_parts by lia. unfold not_a_number.
  assert (Pm : 0 < 2 ^ m) by (apply Z.pow_pos_nonneg; lia). assert (Pe : 0 < 2 ^ e) by (apply Z.pow_pos_nonneg; lia).
  pose proof (Z.mod_pos_bound x (2 ^ m) Pm) as B1. pose proof (Z.mod_pos_bound (x / 2 ^ m) (2 ^ e) Pe) as B2.
  set (s := x mod 2 ^ m) in *. set (q := (x / 2 ^ m) mod 2 ^ e) in *. clearbody s q. generalize dependent (2 ^ m). intros M; intros.
  generalize dependent (2 ^ e). intros E; intros.
  split; [intros H|intros [-> H]; lia].
  assert (q = E - 1) by nia. split; [assumption|]. subst q. lia.
Qed.
Lemma zero_spec e m x : 0 < e -> 0 <= m -> (x mod 2 ^ (m + e) =? 0) = true <-> is_zero e m x.
Proof.
  intros He Hm. rewrite Z.eqb_eq, float_parts by lia. unfold is_zero.
  assert (Pm : 0 < 2 ^ m) by (apply Z.pow_pos_nonneg; lia). assert (Pe : 0 < 2 ^ e) by (apply Z.pow_pos_nonneg; lia).
  pose proof (Z.mod_pos_bound x (2 ^ m) Pm) as B1. pose proof (Z.mod_pos_bound (x / 2 ^ m) (2 ^ e) Pe) as B2.
  set (s := x mod 2 ^ m) in *. set (q := (x / 2 ^ m) mod 2 ^ e) in *. clearbody s q. generalize dependent (2 ^ m). intros M; intros.
  split; [intros H|intros [-> ->]; lia]. assert (q = 0) by nia. subst. lia.
Qed.
Lemma land31 x : Z.land x 2147483647 = x mod 2 ^ (23 + 8). Proof. change 2147483647 with (Z.ones 31). now rewrite Z.land_ones by lia. Qed.
Lemma land63 x : Z.land x 9223372036854775807 = x mod 2 ^ (52 + 11). Proof. change 9223372036854775807 with (Z.ones 63). now rewrite Z.land_ones by lia. Qed.
Lemma bool_iff_false (b : bool) P : (b = true <-> P) -> (negb b = true <-> ~ P).
Proof. destruct b; cbn; intuition congruence. Qed.
Lemma f32_spec a b : f32_eq a b = true <-> same_number 8 23 a b.
Proof.
  unfold f32_eq, same_number. rewrite !land31. change 2139095040 with (2 ^ 23 * (2 ^ 8 - 1)).
  rewrite !andb_true_iff, orb_true_iff, andb_true_iff, zeqb_spec, !zero_spec by lia.
  rewrite !(bool_iff_false _ _ (nan_spec 8 23 _ ltac:(lia) ltac:(lia))). tauto.
Qed.
Lemma f64_spec a b : f64_eq a b = true <-> same_number 11 52 a b.
Proof.
  unfold f64_eq, same_number. rewrite !land63. change 9218868437227405312 with (2 ^ 52 * (2 ^ 11 - 1)).
  rewrite !andb_true_iff, orb_true_iff, andb_true_iff, zeqb_spec, !zero_spec by lia.
  rewrite !(bool_iff_false _ _ (nan_spec 11 52 _ ltac:(lia) ltac:(lia))). tauto.
Qed.

Lemma vval_spec a b : vval_eq a b = true <-> same_content a b.
Proof.
  destruct a, b; cbn [vval_eq same_content]; try (split; [discriminate|discriminate]);
    rewrite ?bool_spec, ?zeqb_spec, ?f32_spec, ?f64_spec, ?str_spec, ?guid_spec, ?nodeid_spec, ?xnodeid_spec, ?qname_spec, ?ltext_spec,
      ?extobj_spec, ?zl_spec, ?(list_eq_spec _ bool_spec), ?(list_eq_spec _ str_spec), ?(list_eq_spec _ guid_spec),
      ?(list_eq_spec _ nodeid_spec), ?(list_eq_spec _ xnodeid_spec), ?(list_eq_spec _ qname_spec), ?(list_eq_spec _ extobj_spec),
      ?(list_eq_F2 _ _ f32_spec), ?(list_eq_F2 _ _ f64_spec), ?(list_eq_F2 _ _ ltext_spec);
    first [reflexivity | split; [now intros ->|now intros [= ->]]].
Qed.
