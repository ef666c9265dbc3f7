(** The text of a number and of its opposite. *)
From Coq Require Import ZArith String List Bool Lia.
From Verif Require Import GoBase BitFacts.
From Verif Require Ftoa ExtFloat Itoa Decimal ClaimsItoa.
Import ListNotations.
Open Scope Z_scope.

Import ExtFloat.

(** The sign field of a slice does not reach the text. *)
Definition ns (s : decimalSlice) : decimalSlice := mkSlice (sd s) (scap s) (sdp s) false.
Definition nsr (r : decimalSlice * bool) : decimalSlice * bool := (ns (fst r), snd r).
Definition mapo {A B : Type} (f : A -> B) (r : outcome A) : outcome B :=
  match r with Ret x => Ret (f x) | Panic => Panic end.
Definition nse (f : extFloat) : extFloat := mkExt (mant f) (exp f) false.

Lemma formatDigits_ns dst sh ng s prec fmt :
  Ftoa.formatDigits dst sh ng (ns s) prec fmt = Ftoa.formatDigits dst sh ng s prec fmt.
Proof.
  assert (Hf : forall n i, Ftoa.frac_digits n i (ns s) = Ftoa.frac_digits n i s).
  { induction n as [|n IH]; intros i; cbn; [reflexivity|]. rewrite IH. reflexivity. }
  unfold Ftoa.formatDigits, Ftoa.fmtE, Ftoa.fmtF. rewrite !Hf. reflexivity.
Qed.

Lemma adjustLastDigit_ns s a b c d e :
  mapo nsr (adjustLastDigit s a b c d e) = mapo nsr (adjustLastDigit (ns s) a b c d e).
Proof.
  unfold adjustLastDigit. destruct (_ <? _); [reflexivity|]. cbn [ns sd].
  destruct (adjust_loop _ _ _ _ _ _) as [[l cd]|]; [|reflexivity]. cbn [bind].
  destruct (_ <=? _); [reflexivity|]. destruct (_ || _); [reflexivity|]. cbn [sd].
  destruct (rev l) as [|x [|y t]]; [reflexivity| |reflexivity]. destruct (x =? 0); reflexivity.
Qed.
Lemma adjustLastDigit_ng d cap dp g1 g2 a b c e f :
  mapo nsr (adjustLastDigit (mkSlice d cap dp g1) a b c e f) =
  mapo nsr (adjustLastDigit (mkSlice d cap dp g2) a b c e f).
Proof. rewrite adjustLastDigit_ns. symmetry. rewrite adjustLastDigit_ns. reflexivity. Qed.

Definition nssum (r : decimalSlice * bool + list Z) : decimalSlice * bool + list Z :=
  match r with inl r => inl (nsr r) | inr d => inr d end.

Lemma shortest_int_ng n : forall i fr sh al td d cap dp g1 g2,
  mapo nssum (shortest_int n i fr sh al td d cap dp g1) =
  mapo nssum (shortest_int n i fr sh al td d cap dp g2).
Proof.
  induction n as [|n IH]; intros; cbn [shortest_int]; [reflexivity|].
  destruct (at_ _ _) as [pow|]; [|reflexivity]. cbn [bind].
  destruct (push _ _ _) as [d'|]; [|reflexivity]. cbn [bind].
  destruct (_ <? _); [|apply IH].
  match goal with |- mapo _ (bind ?x _) = mapo _ (bind ?y _) => assert (E : mapo nsr x = mapo nsr y) by apply adjustLastDigit_ng;
    destruct x, y end; cbn in E |- *; congruence.
Qed.

Lemma shortest_frac_ng n : forall fr m sh al td d cap dp g1 g2,
  mapo nsr (shortest_frac n fr m sh al td d cap dp g1) =
  mapo nsr (shortest_frac n fr m sh al td d cap dp g2).
Proof.
  induction n as [|n IH]; intros; cbn [shortest_frac]; [reflexivity|].
  destruct (push _ _ _) as [d'|]; [|reflexivity]. cbn [bind].
  destruct (_ <? _); [|apply IH]. apply adjustLastDigit_ng.
Qed.

Lemma Normalize_nse f : nse (fst (Normalize f)) = fst (Normalize (nse f)) /\
  snd (Normalize f) = snd (Normalize (nse f)).
Proof. unfold Normalize. cbn [nse mant exp neg]. destruct (mant f =? 0); split; reflexivity. Qed.
Lemma Multiply_nse f g : nse (Multiply f g) = Multiply (nse f) g.
Proof. reflexivity. Qed.

Definition nse4 (x : extFloat * Z * Z) := let '(f, a, b) := x in (nse f, a, b).
Lemma frexp10_nse f : mapo nse4 (frexp10 f) = frexp10 (nse f).
Proof.
  unfold frexp10. cbn [nse exp]. destruct (frexp10_loop _ _ _) as [i|]; [|reflexivity]. cbn [bind].
  destruct (at_ _ _) as [p|]; [|reflexivity]. reflexivity.
Qed.

Definition nseM (x : extFloat * extFloat * extFloat * Z) := let '(a, b, c, z) := x in (nse a, nse b, nse c, z).
Lemma frexp10Many_nse a b c : mapo nseM (frexp10Many a b c) = frexp10Many (nse a) (nse b) (nse c).
Proof.
  unfold frexp10Many. rewrite <- frexp10_nse. destruct (frexp10 c) as [[[c' e] i]|]; [|reflexivity]. cbn [bind mapo nse4].
  destruct (at_ _ _); reflexivity.
Qed.

Lemma uniformize_nse g u : nse (uniformize g u) = uniformize (nse g) (nse u).
Proof. unfold uniformize. cbn [nse exp mant]. destruct (_ <? _); reflexivity. Qed.

Lemma ShortestDecimal_ng f s lower upper : neg f = neg lower -> neg lower = neg upper ->
  mapo nsr (ShortestDecimal f s lower upper) = mapo nsr (ShortestDecimal (nse f) s (nse lower) (nse upper)).
Proof.
  intros N1 N2. unfold ShortestDecimal. cbn [nse mant].
  destruct (mant f =? 0); [reflexivity|].
  assert (E1 : extFloat_eqb lower f = extFloat_eqb (nse lower) (nse f)).
  { unfold extFloat_eqb. cbn. rewrite N1, eqb_reflx. reflexivity. }
  assert (E2 : extFloat_eqb lower upper = extFloat_eqb (nse lower) (nse upper)).
  { unfold extFloat_eqb. cbn. rewrite N2, eqb_reflx. reflexivity. }
  change (mkExt (mant f) (exp f) false) with (nse f).
  change (mkExt (mant lower) (exp lower) false) with (nse lower).
  change (mkExt (mant upper) (exp upper) false) with (nse upper).
  cbn [nse exp mant]. fold (nse f). fold (nse lower). fold (nse upper). rewrite E1, E2.
  destruct (_ && _ && _).
  { destruct (int_to_digits _ _ _); [|reflexivity]. cbn [bind]. destruct (_ <? _); reflexivity. }
  destruct (Normalize_nse upper) as [Eu _].
  destruct (Normalize upper) as [up shf]. destruct (Normalize (nse upper)) as [up' shf']. cbn [fst] in Eu. subst up'.
  rewrite <- !uniformize_nse, <- frexp10Many_nse.
  destruct (frexp10Many _ _ _) as [[[[lo f'] up''] e10]|]; [|reflexivity]. cbn [bind mapo nseM nse mant exp neg].
  match goal with |- mapo _ (bind ?x _) = mapo _ (bind ?y _) =>
    assert (E : mapo nssum x = mapo nssum y) by apply shortest_int_ng; destruct x as [[x1|x1]|]; destruct y as [[y1|y1]|] end;
    cbn [mapo nssum bind] in E |- *; try discriminate; try reflexivity.
  - exact (f_equal (fun o => match o with Ret (inl z) => Ret z | _ => Panic end) E).
  - assert (E' : x1 = y1) by exact (f_equal (fun o => match o with Ret (inr z) => z | _ => [] end) E).
    rewrite E'. clear E.
    generalize (u64 (u64 (mant up'' + 1) - u64 (mant lo - 1))) (u64 (u64 (mant up'' + 1) - mant f')).
    intros al td. generalize 40%nat. intros n. apply shortest_frac_ng.
Qed.

Lemma adjustLastDigitFixed_ng d cap dp g1 g2 a b c e :
  mapo nsr (adjustLastDigitFixed (mkSlice d cap dp g1) a b c e) =
  mapo nsr (adjustLastDigitFixed (mkSlice d cap dp g2) a b c e).
Proof.
  unfold adjustLastDigitFixed. repeat (destruct (_ <? _); [reflexivity|]).
  destruct (_ <? _); [|reflexivity]. cbn [sd]. destruct (inc_rev _); reflexivity.
Qed.

Lemma FixedDecimal_ng f s n : mapo nsr (FixedDecimal f s n) = mapo nsr (FixedDecimal (nse f) s n).
Proof.
  unfold FixedDecimal. cbn [nse mant exp neg]. fold (nse f).
  destruct (mant f =? 0); [reflexivity|]. destruct (n =? 0); [reflexivity|].
  destruct (Normalize_nse f) as [Eu _].
  destruct (Normalize f) as [f1 shf]. destruct (Normalize (nse f)) as [f1' shf']. cbn [fst] in Eu. subst f1'.
  rewrite <- frexp10_nse. destruct (frexp10 f1) as [[[f2 e10] i]|]; [|reflexivity].
  cbn [bind mapo nse4 nse mant exp neg]. reflexivity.
Qed.

Definition minus (b : bool) (t : bytes) : bytes := if b then 45 :: t else t.

Lemma fmtE_neg ng s prec fmt : Ftoa.fmtE [] ng s prec fmt = minus ng (Ftoa.fmtE [] false s prec fmt).
Proof.
  destruct ng; [|reflexivity]. unfold minus.
  change (Ftoa.fmtE [] true s prec fmt) with (Ftoa.fmtE [45] false s prec fmt).
  rewrite ClaimsItoa.fmtE_dst. reflexivity.
Qed.
Lemma fmtF_neg ng s prec : Ftoa.fmtF [] ng s prec = minus ng (Ftoa.fmtF [] false s prec).
Proof.
  destruct ng; [|reflexivity]. unfold minus.
  change (Ftoa.fmtF [] true s prec) with (Ftoa.fmtF [45] false s prec).
  rewrite ClaimsItoa.fmtF_dst. reflexivity.
Qed.

Definition letter (fmt : Z) : Prop := Ftoa.is_e fmt || Ftoa.is_f fmt || Ftoa.is_g fmt = true.

Lemma formatDigits_neg sh ng s prec fmt : letter fmt ->
  Ftoa.formatDigits [] sh ng s prec fmt = minus ng (Ftoa.formatDigits [] sh false s prec fmt).
Proof.
  unfold letter, Ftoa.formatDigits. intros L. destruct (Ftoa.is_e fmt); [apply fmtE_neg|].
  destruct (Ftoa.is_f fmt); [apply fmtF_neg|]. destruct (Ftoa.is_g fmt); [|discriminate].
  clear L. destruct (_ || _); [apply fmtE_neg|apply fmtF_neg].
Qed.

Lemma fmtB_neg w ng m e flt : Ftoa.fmtB w [] ng m e flt = mapo (minus ng) (Ftoa.fmtB w [] false m e flt).
Proof.
  destruct ng; [|destruct (Ftoa.fmtB _ _ _ _ _ _); reflexivity].
  change (Ftoa.fmtB w [] true m e flt) with (Ftoa.fmtB w [45] false m e flt).
  rewrite ClaimsItoa.fmtB_dst. destruct (Ftoa.fmtB _ _ _ _ _ _); reflexivity.
Qed.

Lemma bigFtoa_neg w prec fmt ng m e flt : letter fmt ->
  Ftoa.bigFtoa w [] prec fmt ng m e flt = mapo (minus ng) (Ftoa.bigFtoa w [] prec fmt false m e flt).
Proof.
  intros L. unfold Ftoa.bigFtoa. destruct (Decimal.Assign _ _) as [d|]; [|reflexivity]. cbn [bind].
  destruct (Decimal.Shift _ _ _) as [d'|]; [|reflexivity]. cbn [bind].
  match goal with |- bind ?o _ = _ => destruct o as [[digs p]|] end; [|reflexivity]. cbn [bind mapo].
  rewrite formatDigits_neg by exact L. reflexivity.
Qed.

Lemma ftoa_digits_neg w o fmt prec ng m e flt : letter fmt ->
  Ftoa.ftoa_digits w o [] fmt prec ng m e flt = mapo (minus ng) (Ftoa.ftoa_digits w o [] fmt prec false m e flt).
Proof.
  intros L. unfold Ftoa.ftoa_digits. destruct (negb o); [apply bigFtoa_neg, L|].
  assert (Hr : forall (r1 r2 : outcome (decimalSlice * bool)) (g : decimalSlice -> Z) sh (x1 x2 : outcome bytes),
    (forall s, g (ns s) = g s) ->
    mapo nsr r1 = mapo nsr r2 -> x1 = mapo (minus ng) x2 ->
    ('(digs, ok) <- r1 ;; if (ok : bool) then Ret (Ftoa.formatDigits [] sh ng digs (g digs) fmt) else x1) =
    mapo (minus ng) ('(digs, ok) <- r2 ;; if (ok : bool) then Ret (Ftoa.formatDigits [] sh false digs (g digs) fmt) else x2)).
  { intros r1 r2 g sh x1 x2 Hg E Ex. destruct r1 as [[d1 k1]|], r2 as [[d2 k2]|]; cbn in E |- *; try discriminate; [|reflexivity].
    assert (En : ns d1 = ns d2) by exact (f_equal (fun o => match o with Ret z => fst z | Panic => ns d1 end) E).
    assert (Ek : k1 = k2) by exact (f_equal (fun o => match o with Ret z => snd z | Panic => k1 end) E). subst k2.
    destruct k1; [|exact Ex]. cbn [mapo]. f_equal.
    rewrite <- (Hg d1), <- (Hg d2), En, formatDigits_neg by exact L. f_equal.
    rewrite <- formatDigits_ns, En, formatDigits_ns. reflexivity. }
  destruct (prec <? 0) eqn:Ep.
  - set (A := AssignComputeBounds m e ng flt). set (A' := AssignComputeBounds m e false flt).
    assert (HA : exists f lo up, A = (f, lo, up) /\ A' = (nse f, nse lo, nse up) /\ neg f = neg lo /\ neg lo = neg up).
    { subst A A'. unfold AssignComputeBounds. cbn [mant exp]. destruct (_ && _).
      - eexists _, _, _. repeat split; reflexivity.
      - destruct (_ || _); eexists _, _, _; repeat split; reflexivity. }
    destruct HA as (f & lo & up & -> & -> & N1 & N2).
    apply (Hr _ _ (fun digs => if Ftoa.is_e fmt then Z.max (snd_ digs - 1) 0
          else if Ftoa.is_f fmt then Z.max (snd_ digs - sdp digs) 0
          else if Ftoa.is_g fmt then snd_ digs else prec)).
    + reflexivity.
    + apply ShortestDecimal_ng; assumption.
    + apply bigFtoa_neg, L.
  - destruct (negb (Ftoa.is_f fmt)); [|apply bigFtoa_neg, L].
    destruct (_ <=? 15); [|apply bigFtoa_neg, L].
    apply (Hr _ _ (fun _ => if Ftoa.is_g fmt && (prec =? 0) then 1 else prec)).
    + reflexivity.
    + rewrite FixedDecimal_ng. reflexivity.
    + apply bigFtoa_neg, L.
Qed.
