(** The formatter with arrays prints what the model with lists prints. *)
From Coq Require Import ZArith Reals String List Bool Lia.
From Verif Require Import GoBase BigFloat Spec SpecDec SpecArr SpecFtoa BitFacts IeeeFacts DecFacts DecFacts2 ClaimsDec ExtBounds ClaimsExt FtoaFixed FtoaAll.
From Verif Require Decimal ExtFloat Ftoa.
From Verif Require Import DecimalArr ArrFacts ArrShift ArrLeft ArrOps ExtArr ExtArrFacts FtoaArr.
Import ListNotations.
Open Scope Z_scope.
Import ExtFloat (floatInfo, mantbits, expbits, bias, float16info, float32info, float64info, decimalSlice, mkSlice, sd, scap, sdp, sneg, snd_).
Import Ftoa (byte_of, is_e, is_f, is_g, ch_b).

Lemma rep_slice t s i j : rep t s -> 0 <= i <= j -> j <= snd_ s ->
  slice (bd t) i j = Ret (map byte_of (firstn (Z.to_nat (j - i)) (skipn (Z.to_nat i) (sd s)))).
Proof.
  intros (R1 & R2 & R3 & R4) H J. pose proof (pre_len _ _ R4) as PL. unfold snd_ in J. unfold slice.
  destruct (Z.ltb_spec i 0); [lia|]. destruct (Z.ltb_spec j i); [lia|]. destruct (Z.ltb_spec (len (bd t)) j); [lia|]. cbn [orb]. f_equal.
  rewrite <- (firstn_skipn (length (sd s)) (bd t)). rewrite R4.
  rewrite skipn_app, firstn_app. rewrite map_length. replace (Z.to_nat i - length (sd s))%nat with O by lia. cbn [skipn].
  rewrite skipn_length, map_length. replace (Z.to_nat (j - i) - _)%nat with O by lia. cbn [firstn]. rewrite app_nil_r.
  rewrite <- firstn_map, <- skipn_map. reflexivity.
Qed.

Lemma rep_get t s i : rep t s -> 0 <= i < snd_ s -> get (bd t) i = Ret (Ftoa.sdig s i).
Proof.
  intros (R1 & R2 & R3 & R4) H. pose proof (pre_len _ _ R4) as PL. unfold snd_ in H. rewrite get_ok by lia. f_equal.
  unfold Ftoa.sdig. apply pre_nth; [exact R4|lia].
Qed.

Lemma fmtE_arr w dst neg t s prec fmt : rep t s -> (0 < prec -> sint w (prec + 1) = prec + 1) ->
  fmtE w dst neg t prec fmt = Ret (Ftoa.fmtE dst neg s prec fmt).
Proof.
  intros R HP. pose proof R as (R1 & R2 & R3 & R4). unfold fmtE, Ftoa.fmtE. rewrite R2, R3.
  assert (E0 : (if negb (snd_ s =? 0) then get (bd t) 0 else Ret 48) = Ret (if snd_ s =? 0 then 48 else Ftoa.sdig s 0)).
  { destruct (Z.eqb_spec (snd_ s) 0) as [E|N]; [reflexivity|]. cbn [negb]. apply rep_get; [exact R|]. unfold snd_ in *. lia. }
  rewrite E0. cbn [bind]. set (dst1 := _ ++ [if snd_ s =? 0 then 48 else _]). clearbody dst1.
  destruct (Z.ltb_spec 0 prec) as [L|L].
  - rewrite HP by exact L. rewrite Z.eqb_refl. destruct (Z.ltb_spec 1 (Z.min (snd_ s) (prec + 1))) as [M|M].
    + rewrite (rep_slice t s 1 _ R) by lia. cbn [bind]. change (Z.to_nat 1) with 1%nat.
      destruct ((if snd_ s =? 0 then 0 else sdp s - 1) <? 0); reflexivity.
    + cbn [bind]. destruct ((if snd_ s =? 0 then 0 else sdp s - 1) <? 0); reflexivity.
  - cbn [bind]. destruct ((if snd_ s =? 0 then 0 else sdp s - 1) <? 0); reflexivity.
Qed.

Lemma frac_arr t s : rep t s -> forall n i, frac_digits n i t = Ret (Ftoa.frac_digits n i s).
Proof.
  intros R. pose proof R as (R1 & R2 & R3 & R4). induction n as [|n IH]; intros i; cbn [frac_digits Ftoa.frac_digits]; [reflexivity|]. rewrite R2, R3, IH.
  destruct ((0 <=? sdp s + i) && (sdp s + i <? snd_ s)) eqn:E; [|reflexivity]. rewrite (rep_get t s) by (auto; lia). reflexivity.
Qed.

Lemma fmtF_arr dst neg t s prec : rep t s -> fmtF dst neg t prec = Ret (Ftoa.fmtF dst neg s prec).
Proof.
  intros R. pose proof R as (R1 & R2 & R3 & R4). unfold fmtF, Ftoa.fmtF. rewrite R2, R3. rewrite (frac_arr t s R).
  destruct (Z.ltb_spec 0 (sdp s)) as [L|L].
  - rewrite (rep_slice t s 0 _ R) by (unfold snd_; lia). cbn [bind]. change (Z.to_nat 0) with O. cbn [skipn]. rewrite Z.sub_0_r. destruct (0 <? prec); reflexivity.
  - cbn [bind]. destruct (0 <? prec); reflexivity.
Qed.

Lemma formatDigits_arr w dst sh neg t s prec fmt : rep t s -> w = 32 \/ w = 64 -> (is_e fmt = true -> prec + 1 < 2 ^ (w - 1)) -> snd_ s < 2 ^ 31 ->
  formatDigits w dst sh neg t prec fmt = Ret (Ftoa.formatDigits dst sh neg s prec fmt).
Proof.
  intros R Hw HP HS. pose proof R as (R1 & R2 & R3 & R4). unfold formatDigits, Ftoa.formatDigits. rewrite R2, R3.
  destruct (is_e fmt). { specialize (HP eq_refl). apply fmtE_arr; [exact R|]. intros L. apply sint_wid; [exact Hw|]. destruct Hw as [-> | ->]; cbn in *; lia. }
  destruct (is_f fmt). { apply fmtF_arr, R. }
  destruct (is_g fmt); [|reflexivity].
  destruct (_ || _).
  - apply fmtE_arr; [exact R|]. intros L. apply sint_wid; [exact Hw|]. unfold snd_ in *. clear HP. destruct (Z.ltb_spec (len (sd s)) prec); destruct Hw as [-> | ->]; cbn in *; lia.
  - apply fmtF_arr, R.
Qed.

(** roundShortest *)
Lemma rs_arr inclusive a lo up : array_ok a -> array_ok lo -> array_ok up -> forall n fuel i, (n <= fuel)%nat -> Z.of_nat n = and_ a - i -> 0 <= i ->
  exists b, rs_loop fuel i inclusive a lo up = Ret b /\ array_ok b /\ held b = Ftoa.rs_loop n i inclusive (held a) (held lo) (held up).
Proof.
  intros Ha Hl Hu. induction n as [|n IH]; intros fuel i Hf Hn Hi.
  - exists a. split; [|auto]. destruct fuel; cbn [rs_loop]; (destruct (Z.ltb_spec i (and_ a)); [lia|reflexivity]).
  - destruct fuel as [|fuel]; [lia|]. cbn [rs_loop Ftoa.rs_loop]. destruct (Z.ltb_spec i (and_ a)) as [L|L]; [|lia].
    assert (D : forall b, array_ok b -> exists c, (if i <? and_ b then get (mem b) i else Ret 48) = Ret c /\ (if i <? Decimal.nd (held b) then Decimal.dig (held b) i else 0) = c - 48 /\ 48 <= c <= 57).
    { intros b Hb. rewrite held_nd by exact Hb. destruct (Z.ltb_spec i (and_ b)); [apply get_dig; [exact Hb|lia]|]. exists 48. repeat split; lia. }
    destruct (D lo Hl) as (l & -> & -> & Bl). cbn [bind]. destruct (get_dig a i Ha ltac:(lia)) as (m & -> & -> & Bm). cbn [bind].
    destruct (D up Hu) as (u & -> & -> & Bu). cbn [bind]. rewrite !held_nd by assumption.
    replace (l - 48 =? m - 48) with (l =? m) by (destruct (Z.eqb_spec l m), (Z.eqb_spec (l - 48) (m - 48)); lia || reflexivity).
    replace (m - 48 =? u - 48) with (m =? u) by (destruct (Z.eqb_spec m u), (Z.eqb_spec (m - 48) (u - 48)); lia || reflexivity).
    assert (EU : u8 (m + 1) = m + 1) by (apply Z.mod_small; lia). rewrite EU.
    replace (m - 48 + 1 <? u - 48) with (m + 1 <? u) by (destruct (Z.ltb_spec (m + 1) u), (Z.ltb_spec (m - 48 + 1) (u - 48)); lia || reflexivity).
    set (okd := negb (l =? m) || _). set (oku := negb (m =? u) && _). clearbody okd oku. destruct okd, oku; cbn [andb].
    + apply Round_arr, Ha.
    + apply RoundDown_arr, Ha.
    + apply RoundUp_arr, Ha.
    + apply IH; lia.
Qed.

Lemma u64_range x : 0 <= u64 x < 2 ^ 64.
Proof. apply Z.mod_pos_bound. lia. Qed.

Lemma new_ok : array_ok new_adec.
Proof. split; [reflexivity|]. split; [cbn; lia|]. constructor. Qed.

Lemma make_arr w v k : w = 32 \/ w = 64 -> 0 <= v < 2 ^ 64 -> exists a b a' b', Assign new_adec v = Ret a /\ Shift w a k = Ret b /\ array_ok b /\
  Decimal.Assign Decimal.new_decimal v = Ret a' /\ Decimal.Shift w a' k = Ret b' /\ held b = b'.
Proof.
  intros Hw Hv. destruct (c39 Decimal.new_decimal v Hv) as (a' & E1 & N & _).
  destruct (Assign_arr new_adec v a' eq_refl Hv E1) as (a & A1 & A2 & A3). rewrite <- A3 in N.
  destruct (Shift_arr w a k Hw A2 N) as (b & B1 & B2 & B3). exists a, b, a', (held b). rewrite A3 in B3. auto 8.
Qed.

Lemma roundShortest_arr w a mant exp flt : w = 32 \/ w = 64 -> array_ok a -> 
  exists b, roundShortest w a mant exp flt = Ret b /\ array_ok b /\ Ftoa.roundShortest w (held a) mant exp flt = Ret (held b).
Proof.
  intros Hw Ha. unfold roundShortest, Ftoa.roundShortest. pose proof Ha as (Hl & Hn & _). destruct (mant =? 0).
  { eexists. split; [reflexivity|]. split; [|reflexivity]. split; [exact Hl|]. split; [cbn; lia|]. constructor. }
  rewrite held_nd by exact Ha. change (Decimal.dp (held a)) with (adp a). destruct (_ && _). { exists a. auto. }
  destruct (make_arr w (u64 (u64 (mant * 2) + 1)) (exp - mantbits flt - 1) Hw (u64_range _)) as (u0 & up & u0' & up' & -> & U2 & U3 & -> & U5 & U6). cbn [bind].
  rewrite U2, U5. cbn [bind]. set (lo := if (2 ^ mantbits flt <? mant) || (exp =? bias flt + 1) then _ else _). destruct lo as [mantlo explo].
  destruct (make_arr w (u64 (u64 (mantlo * 2) + 1)) (explo - mantbits flt - 1) Hw (u64_range _)) as (l0 & lo & l0' & lo' & -> & L2 & L3 & -> & L5 & L6). cbn [bind].
  rewrite L2, L5. cbn [bind]. rewrite <- U6, <- L6. assert (LD : length (Decimal.d (held a)) = Z.to_nat (and_ a)) by (unfold held; cbn [Decimal.d]; rewrite map_length, firstn_length; lia).
  rewrite LD. destruct (rs_arr (mant mod 2 =? 0) a lo up Ha L3 U3 (Z.to_nat (and_ a)) 801 0 ltac:(lia) ltac:(lia) ltac:(lia)) as (b & B1 & B2 & B3).
  exists b. rewrite B3. auto.
Qed.

Lemma whole_rep a : array_ok a -> rep (mkBS (mem a) (and_ a) (adp a) false) (mkSlice (Decimal.d (held a)) Decimal.maxDigits (Decimal.dp (held a)) false).
Proof.
  intros H. pose proof H as (Hl & Hn & Ha). pose proof (held_nd a H) as E. unfold Decimal.nd in E. split; [cbn [bd scap]; rewrite Hl; reflexivity|]. split; [cbn [bnd]; unfold snd_; cbn [sd]; lia|].
  split; [reflexivity|]. cbn [bd sd]. unfold pre. replace (length (Decimal.d (held a))) with (Z.to_nat (and_ a)) by lia.
  symmetry. apply (chars_ch _ Ha).
Qed.

Lemma bigFtoa_arr w dst prec fmt neg mant exp flt : w = 32 \/ w = 64 -> 0 <= mant < 2 ^ 64 -> (is_e fmt = true -> prec + 1 < 2 ^ (w - 1)) ->
  bigFtoa w dst prec fmt neg mant exp flt = Ftoa.bigFtoa w dst prec fmt neg mant exp flt.
Proof.
  intros Hw Hm HP. unfold bigFtoa, Ftoa.bigFtoa.
  destruct (make_arr w mant (exp - mantbits flt) Hw Hm) as (a0 & a & a0' & a' & -> & A2 & A3 & -> & A5 & A6). cbn [bind]. rewrite A2, A5. cbn [bind]. rewrite <- A6. clear A2 A5 A6.
  assert (FD : forall b sh pr, array_ok b -> (is_e fmt = true -> pr + 1 < 2 ^ (w - 1)) -> formatDigits w dst sh neg (mkBS (mem b) (and_ b) (adp b) false) pr fmt =
    Ret (Ftoa.formatDigits dst sh neg (mkSlice (Decimal.d (held b)) Decimal.maxDigits (Decimal.dp (held b)) false) pr fmt)).
  { intros b sh pr Hb Hpr. apply formatDigits_arr; [apply whole_rep, Hb|exact Hw|exact Hpr|]. pose proof (held_nd b Hb) as E. unfold Decimal.nd in E. unfold snd_. cbn [sd].
    rewrite E. destruct Hb as (_ & Hb & _). lia. }
  destruct (Z.ltb_spec prec 0) as [L|L].
  - destruct (roundShortest_arr w a mant exp flt Hw A3) as (b & -> & B2 & ->). cbn [bind].
    pose proof (held_nd b B2) as E. unfold Decimal.nd in E. unfold snd_. cbn [sd bnd bdp sdp]. rewrite E.
    pose proof B2 as (_ & Hb & _).
    destruct (is_e fmt). { apply FD; [exact B2|]. intros _. clear HP FD. destruct Hw as [-> | ->]; cbn in *; lia. }
    destruct (is_f fmt) eqn:EF.
    { unfold formatDigits, Ftoa.formatDigits. rewrite EF. destruct (is_e fmt) eqn:EE.
      { unfold is_f, is_e, Ftoa.ch_f, Ftoa.ch_e, Ftoa.ch_E in *. apply Z.eqb_eq in EF. rewrite EF in EE. discriminate. }
      apply fmtF_arr. apply whole_rep, B2. }
    destruct (is_g fmt); apply FD; auto. intros _. clear HP FD. destruct Hw as [-> | ->]; cbn in *; lia.
  - destruct (is_e fmt). { destruct (Round_arr a (sint w (prec + 1)) A3) as (b & -> & B2 & B3). cbn [bind]. rewrite <- B3. apply FD; auto. }
    destruct (is_f fmt). { change (Decimal.dp (held a)) with (adp a). destruct (Round_arr a (sint w (adp a + prec)) A3) as (b & -> & B2 & B3). cbn [bind]. rewrite <- B3. apply FD; auto. }
    destruct (is_g fmt).
    + destruct (Round_arr a (if prec =? 0 then 1 else prec) A3) as (b & -> & B2 & B3). cbn [bind]. rewrite <- B3. apply FD; auto.
      destruct (Z.eqb_spec prec 0); [|exact HP]. intros _. clear HP FD. destruct Hw as [-> | ->]; cbn; lia.
    + cbn [bind]. apply FD; auto.
Qed.

(** The fast paths *)
Lemma init_rep n : rep (mkBS (repeat 0 n) 0 0 false) (mkSlice [] (Z.of_nat n) 0 false).
Proof. split; [cbn [bd scap]; rewrite repeat_length; reflexivity|]. repeat split. Qed.

Lemma short_digits neg flt mb eb mt e : format_of flt mb eb -> float_parts mb eb mt e ->
  exists s' ok, (let '(f, lower, upper) := ExtFloat.AssignComputeBounds mt e neg flt in ExtFloat.ShortestDecimal f (mkSlice [] 32 0 false) lower upper) = Ret (s', ok) /\ (ok = true -> digits_ok (sd s')).
Proof.
  intros Hf Hp. destruct (parts_range flt mb eb mt e Hf Hp) as (M & EX & Mb & Eb & Em & Ee & _).
  destruct (Z.eq_dec mt 0) as [->|N].
      - unfold ExtFloat.AssignComputeBounds. cbn [ExtFloat.exp ExtFloat.mant].
        assert (HE : e - mantbits flt <= 0).
        { rewrite Em. destruct Hp as [[H _]|[_ He]]; [pose proof (pow2_pos mb ltac:(lia)); lia|].
          destruct Hf as [(-> & -> & ->)|[(-> & -> & ->)|(-> & -> & ->)]]; cbn in He; lia. }
        destruct (Z.leb_spec (e - mantbits flt) 0); [|lia]. rewrite Z.shiftr_0_l, Z.shiftl_0_l. change (u64 0) with 0. cbn [Z.eqb andb].
        unfold ExtFloat.ShortestDecimal. cbn [ExtFloat.mant Z.eqb]. eexists _, _. split; [reflexivity|]. intros _. constructor.
      - destruct (ShortestDecimal_all flt mt e neg) with (s := mkSlice [] 32 0 false) as (s' & ok & E & H).
        + destruct Hf as [(-> & _)|[(-> & _)|(-> & _)]]; [left|right; left|right; right]; reflexivity.
        + rewrite Em, Ee. exact Hp.
        + lia.
        + cbn [scap]. lia.
        + exists s', ok. split; [exact E|]. intros Hok. specialize (H Hok). destruct H as ((H & _) & _). apply H.
Qed.

Lemma adjust_cap s a b c d e s1 o : ExtFloat.adjustLastDigit s a b c d e = Ret (s1, o) -> scap s1 = scap s.
Proof.
  intros E. unfold ExtFloat.adjustLastDigit in E. destruct (_ <? _); [apply Ret_inj in E; injection E as <- _; reflexivity|].
  destruct (ExtFloat.adjust_loop _ _ _ _ _ _) as [[l cd]|]; [|discriminate]. cbn [bind] in E. destruct (_ <=? _); [apply Ret_inj in E; injection E as <- _; reflexivity|].
  destruct (_ || _); [apply Ret_inj in E; injection E as <- _; reflexivity|]. cbn [sd] in E. destruct (rev l) as [|x [|y r]]; [| |].
  - apply Ret_inj in E; injection E as <- _; reflexivity.
  - destruct (x =? 0); apply Ret_inj in E; injection E as <- _; reflexivity.
  - apply Ret_inj in E; injection E as <- _; reflexivity.
Qed.

Lemma int_cap n : forall a b c d f g cap h i s1 o, ExtFloat.shortest_int n a b c d f g cap h i = Ret (inl (s1, o)) -> scap s1 = cap.
Proof.
  induction n as [|n IH]; intros * E; cbn [ExtFloat.shortest_int] in E; [discriminate|]. destruct (ExtFloat.at_ _ _); [|discriminate]. cbn [bind] in E.
  destruct (ExtFloat.push _ _ _); [|discriminate]. cbn [bind] in E. destruct (_ <? _); [|apply (IH _ _ _ _ _ _ _ _ _ _ _ E)].
  destruct (ExtFloat.adjustLastDigit _ _ _ _ _ _) as [[s2 o2]|] eqn:EA; [|discriminate]. cbn [bind] in E. apply Ret_inj in E. injection E as -> ->. apply (adjust_cap _ _ _ _ _ _ _ _ EA).
Qed.

Lemma frac_cap n : forall a b c d f g cap h i s1 o, ExtFloat.shortest_frac n a b c d f g cap h i = Ret (s1, o) -> scap s1 = cap.
Proof.
  induction n as [|n IH]; intros * E; cbn [ExtFloat.shortest_frac] in E; [discriminate|].
  destruct (ExtFloat.push _ _ _); [|discriminate]. cbn [bind] in E. destruct (_ <? _); [|apply (IH _ _ _ _ _ _ _ _ _ _ _ E)]. apply (adjust_cap _ _ _ _ _ _ _ _ E).
Qed.

Lemma short_cap f s lower upper s' ok : ExtFloat.ShortestDecimal f s lower upper = Ret (s', ok) -> scap s' = scap s.
Proof.
  unfold ExtFloat.ShortestDecimal. generalize 40%nat. intros fuel E.
  destruct (_ =? 0); [apply Ret_inj in E; injection E as <-; reflexivity|].
  destruct (_ && _ && _).
  - destruct (ExtFloat.int_to_digits _ _ _); [|discriminate]. cbn [bind] in E. destruct (_ <? _); [discriminate|]. apply Ret_inj in E. injection E as <-. reflexivity.
  - destruct (ExtFloat.Normalize upper). destruct (ExtFloat.frexp10Many _ _ _) as [[[[? ?] ?] ?]|]; [|discriminate]. cbn [bind] in E. cbv zeta in E.
    destruct (ExtFloat.shortest_int _ _ _ _ _ _ _ _ _ _) as [[[s2 o2]|d]|] eqn:EI; [| |discriminate]; cbn [bind] in E.
    + apply Ret_inj in E. injection E as -> ->. apply (int_cap _ _ _ _ _ _ _ _ _ _ _ _ EI).
    + apply (frac_cap _ _ _ _ _ _ _ _ _ _ _ _ E).
Qed.

Lemma digits_arr w opt dst fmt prec neg flt mb eb mt e : w = 32 \/ w = 64 -> format_of flt mb eb -> float_parts mb eb mt e -> (is_e fmt = true -> prec + 1 < 2 ^ (w - 1)) ->
  ftoa_digits w opt dst fmt prec neg mt e flt = Ftoa.ftoa_digits w opt dst fmt prec neg mt e flt.
Proof.
  intros Hw Hf Hp HP. destruct (parts_range flt mb eb mt e Hf Hp) as (M & EX & Mb & Eb & Em & Ee & _).
  assert (BB : bigFtoa w dst prec fmt neg mt e flt = Ftoa.bigFtoa w dst prec fmt neg mt e flt) by (apply bigFtoa_arr; auto; lia).
  unfold ftoa_digits, Ftoa.ftoa_digits. destruct opt; cbn [negb]; [|exact BB].
  destruct (Z.ltb_spec prec 0) as [L|L].
  - pose proof (short_digits neg flt mb eb mt e Hf Hp) as SD.
    assert (MR : 0 <= ExtFloat.mant (fst (fst (ExtFloat.AssignComputeBounds mt e neg flt))) < 2 ^ 64).
    { unfold ExtFloat.AssignComputeBounds. cbn [ExtFloat.exp ExtFloat.mant]. destruct ((_ <=? 0) && _) eqn:C; cbn [fst ExtFloat.mant]; [|lia].
      apply andb_prop in C. destruct C as [C _]. apply Z.leb_le in C. rewrite Z.shiftr_div_pow2 by lia.
      pose proof (pow2_pos (- (e - mantbits flt)) ltac:(lia)). split; [apply Z.div_pos; lia|]. apply Z.le_lt_trans with mt; [|lia]. apply Z.div_le_upper_bound; nia. }
    destruct (ExtFloat.AssignComputeBounds mt e neg flt) as [[f lower] upper]. cbn [fst] in MR.
    destruct SD as (s' & ok & E & HD). rewrite E.
    destruct (ShortestDecimal_arr f (mkBS (repeat 0 32) 0 0 false) (mkSlice [] 32 0 false) lower upper s' ok (init_rep 32) eq_refl MR E HD) as (t' & -> & T2). cbn [bind].
    destruct ok; [|exact BB]. specialize (T2 eq_refl). pose proof T2 as (Q1 & Q2 & Q3 & Q4). rewrite Q2, Q3.
    assert (SN : 0 <= snd_ s' < 1000).
    { pose proof (short_cap _ _ _ _ _ _ E) as CAP. cbn [scap] in CAP. pose proof (pre_len _ _ Q4). unfold snd_. lia. }
    destruct (is_f fmt) eqn:EF.
    { unfold formatDigits, Ftoa.formatDigits. rewrite EF. destruct (is_e fmt) eqn:EE.
      { unfold is_f, is_e, Ftoa.ch_f, Ftoa.ch_e, Ftoa.ch_E in *. apply Z.eqb_eq in EF. rewrite EF in EE. discriminate. }
      apply fmtF_arr, T2. }
    apply formatDigits_arr; [exact T2|exact Hw| |lia].
    destruct (is_e fmt); [intros _; clear HP BB; destruct Hw as [-> | ->]; cbn in *; lia|]. discriminate.
  - destruct (is_f fmt) eqn:EF; cbn [negb]; [exact BB|].
    set (prec' := if is_g fmt && (prec =? 0) then 1 else prec).
    assert (HP' : 0 <= prec' /\ (is_e fmt = true -> prec' + 1 < 2 ^ (w - 1))) by (unfold prec'; destruct (is_g fmt && (prec =? 0)); [split; [lia|intros _; clear HP BB; destruct Hw as [-> | ->]; cbn; lia]|auto]).
    assert (BB' : bigFtoa w dst prec' fmt neg mt e flt = Ftoa.bigFtoa w dst prec' fmt neg mt e flt) by (apply bigFtoa_arr; try lia; apply HP').
    set (n := if is_e fmt then sint w (prec' + 1) else prec').
    assert (Hn : 0 <= n). { unfold n. destruct HP' as [Q1 Q2]. destruct (is_e fmt); [|lia]. specialize (Q2 eq_refl). rewrite sint_wid; [lia|exact Hw|]. clear HP BB BB'. destruct Hw as [-> | ->]; cbn in *; lia. }
    destruct (Z.leb_spec n 15) as [N15|N15]; [|exact BB'].
    destruct (Z.eq_dec n 0) as [N0|N0].
    { rewrite N0. unfold FixedDecimal, ExtFloat.FixedDecimal. cbn [ExtFloat.mant]. destruct (Z.eqb_spec mt 0); [|reflexivity]. cbn [bind].
      apply formatDigits_arr; [|exact Hw|apply HP'|unfold snd_; cbn; lia]. split; [cbn [bd scap]; rewrite repeat_length; reflexivity|]. repeat split. }
    destruct (fast_fixed flt mb eb mt e w Hf Hp Hw n neg ltac:(lia)) as (s' & ok & E & HD). rewrite E.
    destruct (FixedDecimal_arr _ (mkBS (repeat 0 24) 0 0 false) (mkSlice [] 24 0 false) n s' ok (init_rep 24) eq_refl ltac:(cbn [scap]; lia) E) as (t' & -> & T2).
    { intros Hok. destruct (HD Hok) as ((D & _) & _). exact D. }
    cbn [bind]. destruct ok; [|exact BB']. specialize (T2 eq_refl). destruct (HD eq_refl) as (_ & LN & _).
    apply formatDigits_arr; [exact T2|exact Hw|apply HP'|unfold snd_; lia].
Qed.

Lemma generic_arr w opt dst val fmt prec bitSize : w = 32 \/ w = 64 -> 0 <= val < 2 ^ 64 -> (is_e fmt = true -> prec + 1 < 2 ^ (w - 1)) ->
  genericFtoa w opt dst val fmt prec bitSize = Ftoa.genericFtoa w opt dst val fmt prec bitSize.
Proof.
  intros Hw Hv HP. unfold genericFtoa, Ftoa.genericFtoa.
  destruct (Ftoa.select val bitSize) as [[b flt]|] eqn:ES; [|reflexivity]. cbn [bind].
  assert (HB : exists mb eb, format_of flt mb eb /\ 0 <= b < 2 ^ (mb + eb + 1)).
  { assert (BS : bitSize = 16 \/ bitSize = 32 \/ bitSize = 64).
    { unfold Ftoa.select in ES. destruct (Z.eqb_spec bitSize 16); [auto|]. destruct (Z.eqb_spec bitSize 32); [auto|]. destruct (Z.eqb_spec bitSize 64); [auto|discriminate]. }
    destruct (select_total val bitSize Hv BS) as (b' & flt' & mb & eb & E & F & R). rewrite ES in E. apply Ret_inj in E. injection E as <- <-. exists mb, eb. auto. }
  destruct HB as (mb & eb & Hf & Hb). destruct (format_ok flt mb eb Hf) as (_ & Em & Ee). rewrite <- Em, <- Ee.
  assert (R : 1 <= mb <= 52 /\ 5 <= eb <= 11 /\ bias flt = 1 - 2 ^ (eb - 1)) by (destruct Hf as [(-> & -> & ->)|[(-> & -> & ->)|(-> & -> & ->)]]; cbn; lia).
  destruct R as (R1 & R2 & Eb).
  destruct (enc_surj mb eb b ltac:(lia) ltac:(lia) Hb) as (s & E & F & HE & HF & ->).
  pose proof (pow2_pos mb ltac:(lia)) as Pm. pose proof (pow2_pos eb ltac:(lia)) as Pe.
  assert (P11 : 2 ^ eb <= 2 ^ 11) by (apply Z.pow_le_mono_r; lia).
  replace (Z.land (sint w (Z.shiftr (enc mb eb s E F) mb)) (2 ^ eb - 1)) with E.
  2:{ rewrite Z.shiftr_div_pow2, enc_div by lia. rewrite (sint_wid w _ Hw).
      2:{ assert (0 <= Z.b2z s <= 1) by (destruct s; cbn; lia). assert (0 <= Z.b2z s * 2 ^ eb <= 2 ^ 11) by nia. destruct Hw as [-> | ->]; cbn in *; lia. }
      replace (2 ^ eb - 1) with (Z.ones eb) by (rewrite Z.ones_equiv; lia). rewrite Z.land_ones by lia. rewrite Z.add_comm, Z.mod_add by lia. rewrite Z.mod_small by lia. reflexivity. }
  replace (Z.land (enc mb eb s E F) (2 ^ mb - 1)) with F.
  2:{ replace (2 ^ mb - 1) with (Z.ones mb) by (rewrite Z.ones_equiv; lia). rewrite Z.land_ones, enc_low by lia. reflexivity. }
  destruct (Z.eqb_spec E (2 ^ eb - 1)) as [e1|e1]; [reflexivity|].
  assert (PP : 2 ^ eb = 2 * 2 ^ (eb - 1)) by (replace eb with (eb - 1 + 1) at 1 by lia; rewrite Z.pow_add_r by lia; change (2 ^ 1) with 2; lia).
  destruct (Z.eqb_spec E 0) as [e0|e0]; destruct (fmt =? ch_b); try reflexivity; apply (digits_arr w opt dst fmt prec _ flt mb eb); auto; rewrite Eb.
  - right. lia.
  - left. replace (Z.lor F (2 ^ mb)) with (2 ^ mb + F).
    + rewrite Z.pow_add_r by lia; change (2 ^ 1) with 2; lia.
    + rewrite Z.lor_comm. replace (2 ^ mb) with (1 * 2 ^ mb) at 2 by lia. rewrite lor_add by lia. lia.
Qed.

(** The largest int as precision of 'e': the loop of fmtE does not end *)
Lemma fmtE_max w dst neg s fmt : w = 32 \/ w = 64 -> fmtE w dst neg s (2 ^ (w - 1) - 1) fmt = Panic.
Proof.
  intros Hw. unfold fmtE. replace (2 ^ (w - 1) - 1 + 1) with (2 ^ (w - 1)) by lia.
  assert (E : (0 <? 2 ^ (w - 1) - 1) = true /\ sint w (2 ^ (w - 1)) = - 2 ^ (w - 1) /\ (sint w (2 ^ (w - 1)) =? 2 ^ (w - 1)) = false) by (destruct Hw as [-> | ->]; vm_compute; auto).
  destruct E as (-> & E & ->). destruct (if negb (bnd s =? 0) then get (bd s) 0 else Ret 48) as [ch|]; [|reflexivity]. cbn [bind].
  destruct (1 <? _); [|reflexivity]. destruct (slice _ _ _); reflexivity.
Qed.

Lemma bind_all {A C} (o : outcome A) (k : A -> outcome C) : (forall x, k x = Panic) -> (x <- o ;; k x) = Panic.
Proof. intros H. destruct o; [apply H|reflexivity]. Qed.

Lemma big_max w dst fmt neg mant exp flt : w = 32 \/ w = 64 -> is_e fmt = true -> bigFtoa w dst (2 ^ (w - 1) - 1) fmt neg mant exp flt = Panic.
Proof.
  intros Hw He. unfold bigFtoa. apply bind_all. intros d. apply bind_all. clear d. intros d. unfold formatDigits. rewrite He.
  replace (2 ^ (w - 1) - 1 <? 0) with false by (destruct Hw as [-> | ->]; reflexivity).
  destruct (Round d _); [|reflexivity]. cbn [bind]. apply fmtE_max, Hw.
Qed.

Lemma digits_max w opt dst fmt neg mant exp flt : w = 32 \/ w = 64 -> is_e fmt = true -> ftoa_digits w opt dst fmt (2 ^ (w - 1) - 1) neg mant exp flt = Panic.
Proof.
  intros Hw He. unfold ftoa_digits. assert (EF : is_f fmt = false /\ is_g fmt = false).
  { unfold is_e, is_f, is_g, Ftoa.ch_e, Ftoa.ch_E, Ftoa.ch_f, Ftoa.ch_g, Ftoa.ch_G in *. apply orb_prop in He. destruct He as [He|He]; apply Z.eqb_eq in He; rewrite He; auto. }
  destruct EF as (-> & ->). cbn [andb negb]. rewrite He, (big_max w dst fmt neg mant exp flt Hw He). destruct (negb opt); [reflexivity|].
  replace (2 ^ (w - 1) - 1 <? 0) with false by (destruct Hw as [-> | ->]; reflexivity).
  destruct (_ <=? 15); [|reflexivity]. apply bind_all. intros [t ok]. destruct ok; [|reflexivity]. unfold formatDigits. rewrite He. apply fmtE_max, Hw.
Qed.
