(** Wrapping in binary64 is exact (C32). *)
From Coq Require Import ZArith Lia List Floats.SpecFloat.
From Verif Require Import FloatModel FloatSpec.
Import ListNotations.
Local Open Scope Z_scope.

Lemma digits_log2 : forall p, Zpos (digits2_pos p) = Z.log2 (Zpos p) + 1.
Proof.
  induction p as [p IH|p IH|]; [| |reflexivity]; cbn [digits2_pos]; rewrite Pos2Z.inj_succ, IH.
  - change (Zpos p~1) with (2 * Zpos p + 1). rewrite Z.log2_succ_double by lia. lia.
  - change (Zpos p~0) with (2 * Zpos p). rewrite Z.log2_double by lia. lia.
Qed.
Lemma digits_shift p q k : 0 <= k -> Zpos q = Zpos p * 2 ^ k -> Zpos (digits2_pos q) = Zpos (digits2_pos p) + k.
Proof. intros Hk E. rewrite !digits_log2, E. rewrite <- Z.shiftl_mul_pow2, Z.log2_shiftl by lia. lia. Qed.
Lemma shift_mul d p : Zpos (shift_pos d p) = Zpos p * 2 ^ Zpos d.
Proof. rewrite shift_pos_correct. rewrite Z.mul_comm. f_equal. Qed.

Lemma shr_double p : shr_1 {| shr_m := 2 * Zpos p; shr_r := false; shr_s := false |} = {| shr_m := Zpos p; shr_r := false; shr_s := false |}.
Proof. reflexivity. Qed.
Lemma shr_iter : forall d p q, Zpos q = Zpos p * 2 ^ Zpos d ->
  iter_pos shr_1 d {| shr_m := Zpos q; shr_r := false; shr_s := false |} = {| shr_m := Zpos p; shr_r := false; shr_s := false |}.
Proof.
  induction d as [d IH|d IH|]; intros p q E.
  - cbn [iter_pos]. assert (X : Zpos q = 2 * Zpos (shift_pos d (shift_pos d p))).
    { rewrite !shift_mul, E. change (Zpos d~1) with (2 * Zpos d + 1). rewrite Z.pow_add_r, Z.pow_1_r by lia. replace (2 * Zpos d) with (Zpos d + Zpos d) by lia.
      rewrite Z.pow_add_r by lia. ring. }
    rewrite X, shr_double. rewrite (IH (shift_pos d p)) by (rewrite shift_mul; reflexivity). apply IH. rewrite shift_mul. reflexivity.
  - cbn [iter_pos]. rewrite (IH (shift_pos d p)).
    + apply IH. rewrite shift_mul. reflexivity.
    + rewrite !shift_mul, E. change (Zpos d~0) with (2 * Zpos d). replace (2 * Zpos d) with (Zpos d + Zpos d) by lia. rewrite Z.pow_add_r by lia. ring.
  - cbn [iter_pos]. rewrite E. replace (Zpos p * 2 ^ 1) with (2 * Zpos p) by (change (2 ^ 1) with 2; lia). apply shr_double.
Qed.

Section Round.
  Variables (m : positive) (e : Z).
  Hypothesis B : bounded prec emax m e = true.
  Lemma bounded_parts : fexp prec emax (Zpos (digits2_pos m) + e) = e /\ e <= emax - prec.
  Proof. unfold bounded, canonical_mantissa in B. apply andb_prop in B. destruct B as [C D]. apply Zeq_bool_eq in C. split; [exact C | lia]. Qed.
  Lemma aux_canonical s : binary_round_aux prec emax s (Zpos m) e loc_Exact = S754_finite s m e.
  Proof.
    destruct bounded_parts as [C D]. unfold binary_round_aux, shr_fexp. cbn [Zdigits2]. rewrite C, Z.sub_diag. cbn [shr shr_record_of_loc shr_m loc_of_shr_record round_nearest_even].
    cbn [Zdigits2]. rewrite C, Z.sub_diag. cbn [shr shr_record_of_loc shr_m]. destruct (Z.leb_spec e (emax - prec)); [reflexivity | lia].
  Qed.
  (** A number with a larger exponent ... *)
  Lemma round_left s M E : e <= E -> Zpos m = Zpos M * 2 ^ (E - e) -> binary_round prec emax s M E = S754_finite s m e.
  Proof.
    intros L Em. destruct bounded_parts as [C D]. unfold binary_round.
    assert (Dg : Zpos (digits2_pos M) + E = Zpos (digits2_pos m) + e) by (rewrite (digits_shift M m (E - e)) by (try lia; exact Em); lia).
    rewrite Dg, C. unfold shl_align. destruct (e - E) as [|d|d] eqn:X.
    - assert (E = e) by lia. subst E. assert (M = m) by (rewrite Z.sub_diag in Em; cbn in Em; lia). subst M. apply aux_canonical.
    - lia.
    - assert (shift_pos d M = m) as ->; [|apply aux_canonical].
      assert (H : Zpos (shift_pos d M) = Zpos m) by (rewrite shift_mul, Em; f_equal; f_equal; lia). congruence.
  Qed.
  (** ... or a smaller one. *)
  Lemma round_right s M E : E <= e -> Zpos M = Zpos m * 2 ^ (e - E) -> binary_round prec emax s M E = S754_finite s m e.
  Proof.
    intros L Em. destruct (Z.eq_dec E e) as [->|Hne].
    - apply round_left; [lia|]. rewrite Z.sub_diag in *. cbn in *. lia.
    - destruct bounded_parts as [C D]. unfold binary_round.
      assert (Dg : Zpos (digits2_pos M) + E = Zpos (digits2_pos m) + e) by (rewrite (digits_shift m M (e - E)) by (try lia; exact Em); lia).
      rewrite Dg, C. unfold shl_align. destruct (e - E) as [|d|d] eqn:X; [lia| |lia].
      unfold binary_round_aux. unfold shr_fexp at 1. cbn [Zdigits2]. rewrite Dg, C, X. cbn [shr shr_record_of_loc].
      rewrite (shr_iter d m M Em). replace (E + Zpos d) with e by lia. cbn [shr_m loc_of_shr_record round_nearest_even].
      pose proof (aux_canonical s) as A. unfold binary_round_aux in A. unfold shr_fexp at 1 in A. cbn [Zdigits2] in A. rewrite C, Z.sub_diag in A.
      cbn [shr shr_record_of_loc shr_m loc_of_shr_record round_nearest_even] in A. exact A.
  Qed.
End Round.

(** An integer of at most 53 digits is exact at any exponent used here. *)
Lemma round_small s N E : Zpos N < 2 ^ 53 -> -500 <= E <= 500 ->
  exists m k, 0 <= k < 53 /\ Zpos m = Zpos N * 2 ^ k /\ bounded prec emax m (E - k) = true /\ binary_round prec emax s N E = S754_finite s m (E - k).
Proof.
  intros L HE. set (d := Zpos (digits2_pos N)). assert (Hd : 1 <= d <= 53).
  { unfold d. rewrite digits_log2. pose proof (Z.log2_nonneg (Zpos N)). assert (Z.log2 (Zpos N) < 53) by (apply Z.log2_lt_pow2; lia). lia. }
  set (k := 53 - d). assert (exists m, Zpos m = Zpos N * 2 ^ k) as [m Em].
  { assert (0 < Zpos N * 2 ^ k) by (apply Z.mul_pos_pos; [lia | apply Z.pow_pos_nonneg; unfold k; lia]). exists (Z.to_pos (Zpos N * 2 ^ k)). rewrite Z2Pos.id; lia. }
  assert (Bm : bounded prec emax m (E - k) = true).
  { unfold bounded, canonical_mantissa. rewrite (digits_shift N m k) by (try exact Em; unfold k; lia). fold d. unfold fexp, emin, prec, emax.
    apply andb_true_intro. split; [|lia]. apply Zeq_is_eq_bool. unfold k. lia. }
  exists m, k. split; [unfold k; lia|]. split; [exact Em|]. split; [exact Bm|]. apply round_left; [exact Bm | unfold k; lia|]. rewrite Em. f_equal. f_equal. lia.
Qed.

(** ** Values *)
Definition unit := 2 ^ 1074.
Lemma unit_pos : 0 < unit. Proof. apply Z.pow_pos_nonneg; lia. Qed.
Global Opaque unit.
Lemma pow_unit k : -1074 <= k -> k <= 0 -> 2 ^ (k + 1074) * 2 ^ (- k) = unit.
Proof. intros H H'. rewrite <- Z.pow_add_r by lia. replace (k + 1074 + - k) with 1074 by lia. reflexivity. Qed.

Lemma bounded_range m e : bounded prec emax m e = true -> -1074 <= e <= 971 /\ Zpos m < 2 ^ 53 /\ (e = -1074 \/ 2 ^ 52 <= Zpos m).
Proof.
  intros B. destruct (bounded_parts m e B) as [C D]. unfold fexp, emin, prec, emax in *. rewrite digits_log2 in C.
  pose proof (Z.log2_spec (Zpos m) ltac:(lia)) as [L U]. pose proof (Z.log2_nonneg (Zpos m)).
  split; [lia|]. assert (Z.log2 (Zpos m) <= 52) by lia. split.
  - eapply Z.lt_le_trans; [exact U|]. apply Z.pow_le_mono_r; lia.
  - destruct (Z.eq_dec e (-1074)); [left; assumption|]. right. assert (Z.log2 (Zpos m) = 52) by lia. rewrite H1 in L. exact L.
Qed.
Lemma small_value m e : bounded prec emax m e = true -> e <= -46 -> Zpos m * 2 ^ (e + 1074) < 128 * unit.
Proof.
  intros B H. destruct (bounded_range m e B) as (R & U & _). pose proof (pow_unit (-46) ltac:(lia) ltac:(lia)) as P.
  assert (2 ^ (e + 1074) <= 2 ^ (-46 + 1074)) by (apply Z.pow_le_mono_r; lia). assert (0 < 2 ^ (e + 1074)) by (apply Z.pow_pos_nonneg; lia).
  change (2 ^ - -46) with (2 ^ 46) in P. assert (0 < 2 ^ (-46 + 1074)) by (apply Z.pow_pos_nonneg; lia). set (w := 2 ^ (-46 + 1074)) in *. set (v := 2 ^ (e + 1074)) in *. nia.
Qed.
Lemma large_value m e : bounded prec emax m e = true -> -44 <= e -> 256 * unit <= Zpos m * 2 ^ (e + 1074) /\ (-43 <= e -> 512 * unit <= Zpos m * 2 ^ (e + 1074)).
Proof.
  intros B H. destruct (bounded_range m e B) as (R & _ & [X|U]); [lia|]. split; [|intros H'].
  - pose proof (pow_unit (-44) ltac:(lia) ltac:(lia)) as P. assert (2 ^ (-44 + 1074) <= 2 ^ (e + 1074)) by (apply Z.pow_le_mono_r; lia).
    change (2 ^ - -44) with (2 ^ 44) in P. assert (0 < 2 ^ (-44 + 1074)) by (apply Z.pow_pos_nonneg; lia). set (w := 2 ^ (-44 + 1074)) in *. set (v := 2 ^ (e + 1074)) in *. nia.
  - pose proof (pow_unit (-43) ltac:(lia) ltac:(lia)) as P. assert (2 ^ (-43 + 1074) <= 2 ^ (e + 1074)) by (apply Z.pow_le_mono_r; lia).
    change (2 ^ - -43) with (2 ^ 43) in P. assert (0 < 2 ^ (-43 + 1074)) by (apply Z.pow_pos_nonneg; lia). set (w := 2 ^ (-43 + 1074)) in *. set (v := 2 ^ (e + 1074)) in *. nia.
Qed.

Lemma fl180 : fl 180 0 = S754_finite false 6333186975989760 (-45). Proof. reflexivity. Qed.
Lemma fl360 : fl 360 0 = S754_finite false 6333186975989760 (-44). Proof. reflexivity. Qed.
Lemma fl0 : fl 0 0 = S754_zero false. Proof. reflexivity. Qed.

Lemma lt180 m e : bounded prec emax m e = true -> SFltb (fl 180 0) (S754_finite false m e) = true <-> 180 * unit < Zpos m * 2 ^ (e + 1074).
Proof.
  intros B. rewrite fl180. unfold SFltb, SFcompare. pose proof unit_pos. destruct (Z.compare_spec (-45) e) as [E|E|E].
  - subst e. change (Pos.compare_cont Eq 6333186975989760 m) with (Pos.compare 6333186975989760 m).
    pose proof (pow_unit (-45) ltac:(lia) ltac:(lia)) as P. change (2 ^ - -45) with (2 ^ 45) in P. assert (0 < 2 ^ (-45 + 1074)) by (apply Z.pow_pos_nonneg; lia).
    set (w := 2 ^ (-45 + 1074)) in *. assert (U : 180 * unit = 6333186975989760 * w) by lia. rewrite U, <- Z.mul_lt_mono_pos_r by assumption. clear.
    change (Zpos 6333186975989760 < Zpos m) with (Z.compare (Zpos 6333186975989760) (Zpos m) = Lt).
    change (Z.compare (Zpos 6333186975989760) (Zpos m)) with (Pos.compare 6333186975989760 m).
    destruct (Pos.compare 6333186975989760 m); split; congruence.
  - split; [intros _|reflexivity]. destruct (large_value m e B ltac:(lia)) as [L _]. lia.
  - split; [discriminate|]. intros X. pose proof (small_value m e B ltac:(lia)). lia.
Qed.

(** [x - 360] for 180 < x <= 360. *)
Lemma sub_exact m e : bounded prec emax m e = true -> 180 * unit < Zpos m * 2 ^ (e + 1074) -> Zpos m * 2 ^ (e + 1074) <= 360 * unit ->
  (Zpos m * 2 ^ (e + 1074) = 360 * unit /\ fsub (S754_finite false m e) (fl 360 0) = S754_zero false) \/
  exists m' e', bounded prec emax m' e' = true /\ fsub (S754_finite false m e) (fl 360 0) = S754_finite true m' e' /\
    Zpos m' * 2 ^ (e' + 1074) = 360 * unit - Zpos m * 2 ^ (e + 1074) /\ fadd (S754_finite true m' e') (fl 360 0) = S754_finite false m e.
Proof.
  intros B Lo Hi. pose proof unit_pos as UP.
  assert (e = -45 \/ e = -44) as [-> | ->].
  { destruct (Z_le_gt_dec e (-46)); [pose proof (small_value m e B ltac:(lia)); lia|]. destruct (Z_le_gt_dec (-43) e); [destruct (large_value m e B ltac:(lia)) as [_ L]; specialize (L ltac:(lia)); lia|]. lia. }
  - destruct (bounded_range m _ B) as (_ & U & _).
    pose proof (pow_unit (-45) ltac:(lia) ltac:(lia)) as P. change (2 ^ - -45) with (2 ^ 45) in P. assert (W0 : 0 < 2 ^ (-45 + 1074)) by (apply Z.pow_pos_nonneg; lia).
    set (w := 2 ^ (-45 + 1074)) in *. right.
    assert (Lm : 180 * 2 ^ 45 < Zpos m) by nia. assert (exists N, Zpos N = 360 * 2 ^ 45 - Zpos m) as [N EN] by (exists (Z.to_pos (360 * 2 ^ 45 - Zpos m)); rewrite Z2Pos.id; lia).
    destruct (round_small true N (-45)) as (m' & k & Hk & Em & Bm & R); [lia|lia|]. exists m', (-45 - k). split; [exact Bm|].
    assert (S : fsub (S754_finite false m (-45)) (fl 360 0) = S754_finite true m' (-45 - k)).
    { rewrite fl360. unfold fsub, SFsub. cbn [cond_Zopp]. change (Z.min (-45) (-44)) with (-45). change (shl_align m (-45) (-45)) with (m, -45).
      change (shl_align 6333186975989760 (-44) (-45)) with (12666373951979520%positive, -45). cbn [fst].
      assert (X : Zpos m - 12666373951979520 = Zneg N) by lia. rewrite X. cbn [binary_normalize]. exact R. }
    split; [exact S|]. split.
    + rewrite Em. assert (Pk : 2 ^ k * 2 ^ (-45 - k + 1074) = w) by (unfold w; rewrite <- Z.pow_add_r by lia; f_equal; lia). rewrite <- Z.mul_assoc, Pk, EN. nia.
    + rewrite fl360. unfold fadd, SFadd. cbn [cond_Zopp]. replace (Z.min (-45 - k) (-44)) with (-45 - k) by lia.
      assert (A1 : shl_align m' (-45 - k) (-45 - k) = (m', -45 - k)) by (unfold shl_align; rewrite Z.sub_diag; reflexivity). rewrite A1.
      assert (A2 : Zpos (fst (shl_align 6333186975989760 (-44) (-45 - k))) = 6333186975989760 * 2 ^ (1 + k)).
      { unfold shl_align. destruct (-45 - k - -44) as [|d|d] eqn:X; [lia | lia|]. cbn [fst]. rewrite shift_mul. f_equal. f_equal. lia. }
      rewrite A2. cbn [fst]. assert (Pos0 : 0 < 2 ^ k) by (apply Z.pow_pos_nonneg; lia).
      assert (Sum : - Zpos m' + 6333186975989760 * 2 ^ (1 + k) = Zpos m * 2 ^ k) by (rewrite Em, EN, Z.pow_add_r by lia; change (2 ^ 1) with 2; nia).
      change (Z.opp (Zpos m')) with (- Zpos m'). rewrite Sum.
      destruct (Zpos m * 2 ^ k) as [|q|q] eqn:Q; [nia| |nia]. cbn [binary_normalize]. apply round_right; [exact B | lia|].
      rewrite <- Q. f_equal. f_equal. lia.
  - destruct (bounded_range m _ B) as (_ & U & [X|Lm]); [lia|].
    pose proof (pow_unit (-44) ltac:(lia) ltac:(lia)) as P. change (2 ^ - -44) with (2 ^ 44) in P. assert (W0 : 0 < 2 ^ (-44 + 1074)) by (apply Z.pow_pos_nonneg; lia).
    set (w := 2 ^ (-44 + 1074)) in *. assert (Hm : Zpos m <= 360 * 2 ^ 44) by nia. destruct (Z.eq_dec (Zpos m) (360 * 2 ^ 44)) as [Eq|Ne].
    + left. split; [nia|]. assert (m = 6333186975989760%positive) by lia. subst m. reflexivity.
    + right. assert (exists N, Zpos N = 360 * 2 ^ 44 - Zpos m) as [N EN] by (exists (Z.to_pos (360 * 2 ^ 44 - Zpos m)); rewrite Z2Pos.id; lia).
      destruct (round_small true N (-44)) as (m' & k & Hk & Em & Bm & R); [lia|lia|]. exists m', (-44 - k). split; [exact Bm|].
      assert (S : fsub (S754_finite false m (-44)) (fl 360 0) = S754_finite true m' (-44 - k)).
      { rewrite fl360. unfold fsub, SFsub. cbn [cond_Zopp]. change (Z.min (-44) (-44)) with (-44). change (shl_align m (-44) (-44)) with (m, -44).
        change (shl_align 6333186975989760 (-44) (-44)) with (6333186975989760%positive, -44). cbn [fst].
        assert (X : Zpos m - 6333186975989760 = Zneg N) by lia. rewrite X. cbn [binary_normalize]. exact R. }
      split; [exact S|]. split.
      * rewrite Em. assert (Pk : 2 ^ k * 2 ^ (-44 - k + 1074) = w) by (unfold w; rewrite <- Z.pow_add_r by lia; f_equal; lia). rewrite <- Z.mul_assoc, Pk, EN. nia.
      * rewrite fl360. unfold fadd, SFadd. cbn [cond_Zopp]. replace (Z.min (-44 - k) (-44)) with (-44 - k) by lia.
        assert (A1 : shl_align m' (-44 - k) (-44 - k) = (m', -44 - k)) by (unfold shl_align; rewrite Z.sub_diag; reflexivity). rewrite A1.
        assert (A2 : Zpos (fst (shl_align 6333186975989760 (-44) (-44 - k))) = 6333186975989760 * 2 ^ k).
        { unfold shl_align. destruct (-44 - k - -44) as [|d|d] eqn:X; [|lia|].
          - assert (k = 0) by lia. subst k. reflexivity.
          - cbn [fst]. rewrite shift_mul. f_equal. f_equal. lia. }
        rewrite A2. cbn [fst]. assert (Pos0 : 0 < 2 ^ k) by (apply Z.pow_pos_nonneg; lia).
        assert (Sum : - Zpos m' + 6333186975989760 * 2 ^ k = Zpos m * 2 ^ k) by (rewrite Em, EN; nia).
        change (Z.opp (Zpos m')) with (- Zpos m'). rewrite Sum.
        destruct (Zpos m * 2 ^ k) as [|q|q] eqn:Q; [nia| |nia]. cbn [binary_normalize]. apply round_right; [exact B | lia|].
        rewrite <- Q. f_equal. f_equal. lia.
Qed.

Lemma wrap_float_spec x : Double x -> 0 <= units x <= degrees 360 ->
  exists y, wrap_float [x] = [y] /\ Double y /\ degrees (-180) < units y <= degrees 180 /\
    (units y = units x \/ units y = units x - degrees 360) /\
    (unwrap_float [y] = [x] \/ (units x = degrees 360 /\ units y = 0)).
Proof.
  intros D R. unfold degrees in *. change (2 ^ 1074) with unit in *. pose proof unit_pos as UP. unfold wrap_float, unwrap_float. cbn [map]. rewrite fl0.
  destruct x as [s|s| |s m e]; cbn in D; try contradiction.
  - exists (S754_zero s). split; [reflexivity|]. split; [exact I|]. cbn [units] in *. split; [lia|]. split; [left; reflexivity|]. left. reflexivity.
  - destruct s.
    { exfalso. cbn [units cond_Zopp] in R. destruct (bounded_range m e D) as (B & _). assert (0 < 2 ^ (e + 1074)) by (apply Z.pow_pos_nonneg; lia). nia. }
    cbn [units cond_Zopp] in *. destruct (SFltb (fl 180 0) (S754_finite false m e)) eqn:E.
    + apply (lt180 m e D) in E. destruct (sub_exact m e D E ltac:(lia)) as [[Eq S]|(m' & e' & B' & S & V & A)].
      * exists (S754_zero false). rewrite S. split; [reflexivity|]. split; [exact I|]. cbn [units]. split; [lia|]. split; [right; lia|]. right. split; [exact Eq | reflexivity].
      * exists (S754_finite true m' e'). rewrite S. split; [reflexivity|]. split; [exact B'|]. cbn [units cond_Zopp].
        assert (0 < Zpos m' * 2 ^ (e' + 1074)). { destruct (bounded_range m' e' B') as (B2 & _). apply Z.mul_pos_pos; [lia | apply Z.pow_pos_nonneg; lia]. }
        split; [lia|]. split; [right; lia|]. left. cbn [SFltb SFcompare]. rewrite A. reflexivity.
    + exists (S754_finite false m e). split; [reflexivity|]. split; [exact D|]. cbn [units cond_Zopp].
      assert (~ 180 * unit < Zpos m * 2 ^ (e + 1074)) by (intros X; apply (lt180 m e D) in X; congruence).
      split; [lia|]. split; [left; reflexivity|]. left. reflexivity.
Qed.
