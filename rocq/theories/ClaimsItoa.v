(** The lemmas behind the theorems about integer formatting. *)
From Coq Require Import ZArith List Bool Lia String.
From Verif Require Import GoBase SpecText BitFacts ItoaFacts.
From Verif Require Itoa BigFloat Ftoa Decimal ExtFloat.
Import ListNotations.
Open Scope Z_scope.

Lemma legal_or base : 2 <= base <= 36 \/ (base < 2 \/ 36 < base).
Proof. lia. Qed.

(** AppendFloat. *)
Lemma fmtE_dst dst neg s prec fmt : Ftoa.fmtE dst neg s prec fmt = dst ++ Ftoa.fmtE [] neg s prec fmt.
Proof.
  unfold Ftoa.fmtE. set (m := Z.min _ _). clearbody m.
  destruct (_ <? 0); destruct neg, (0 <? prec); try destruct (1 <? m); rewrite ?app_nil_l, <- ?app_assoc; reflexivity.
Qed.
Lemma fmtF_dst dst neg s prec : Ftoa.fmtF dst neg s prec = dst ++ Ftoa.fmtF [] neg s prec.
Proof.
  unfold Ftoa.fmtF. destruct neg, (0 <? ExtFloat.sdp s), (0 <? prec); rewrite ?app_nil_l, <- ?app_assoc; reflexivity.
Qed.
Lemma formatDigits_dst dst sh neg s prec fmt :
  Ftoa.formatDigits dst sh neg s prec fmt = dst ++ Ftoa.formatDigits [] sh neg s prec fmt.
Proof.
  unfold Ftoa.formatDigits. destruct (Ftoa.is_e fmt); [apply fmtE_dst|]. destruct (Ftoa.is_f fmt); [apply fmtF_dst|].
  destruct (Ftoa.is_g fmt); [|reflexivity]. destruct (_ || _); [apply fmtE_dst|apply fmtF_dst].
Qed.
Lemma fmtB_dst w dst neg mant exp flt : Ftoa.fmtB w dst neg mant exp flt =
  bind (Ftoa.fmtB w [] neg mant exp flt) (fun s => Ret (dst ++ s)).
Proof.
  unfold Ftoa.fmtB. destruct (Itoa.formatBits _ mant _ _); [|reflexivity]. cbn [bind].
  destruct (Itoa.formatBits _ _ _ _); [|reflexivity]. cbn [bind].
  destruct neg, (0 <=? _); rewrite ?app_nil_l, <- ?app_assoc; reflexivity.
Qed.
Lemma bigFtoa_dst w dst prec fmt neg mant exp flt : Ftoa.bigFtoa w dst prec fmt neg mant exp flt =
  bind (Ftoa.bigFtoa w [] prec fmt neg mant exp flt) (fun s => Ret (dst ++ s)).
Proof.
  unfold Ftoa.bigFtoa. destruct (Decimal.Assign _ _) as [d|]; [|reflexivity]. cbn [bind].
  destruct (Decimal.Shift _ _ _) as [d'|]; [|reflexivity]. cbn [bind].
  match goal with |- bind ?o _ = _ => destruct o as [[digs p]|] end; [|reflexivity]. cbn [bind].
  rewrite formatDigits_dst. reflexivity.
Qed.
Lemma ftoa_digits_dst w o dst fmt prec neg mant exp flt : Ftoa.ftoa_digits w o dst fmt prec neg mant exp flt =
  bind (Ftoa.ftoa_digits w o [] fmt prec neg mant exp flt) (fun s => Ret (dst ++ s)).
Proof.
  unfold Ftoa.ftoa_digits. destruct (negb o); [apply bigFtoa_dst|].
  destruct (prec <? 0).
  - destruct (ExtFloat.AssignComputeBounds _ _ _ _) as [[f lo] up].
    destruct (ExtFloat.ShortestDecimal _ _ _ _) as [[digs ok]|]; [|reflexivity]. cbn [bind].
    destruct ok; [|apply bigFtoa_dst]. rewrite formatDigits_dst. reflexivity.
  - destruct (negb (Ftoa.is_f fmt)); [|apply bigFtoa_dst].
    destruct (_ <=? 15); [|apply bigFtoa_dst].
    destruct (ExtFloat.FixedDecimal _ _ _) as [[digs ok]|]; [|reflexivity]. cbn [bind].
    destruct ok; [|apply bigFtoa_dst]. rewrite formatDigits_dst. reflexivity.
Qed.
Lemma AppendFloat_eq w o dst f fmt prec bits : Ftoa.AppendFloat w o dst f fmt prec bits =
  bind (Ftoa.FormatFloat w o f fmt prec bits) (fun s => Ret (dst ++ s)).
Proof.
  unfold Ftoa.AppendFloat, Ftoa.FormatFloat, Ftoa.genericFtoa.
  destruct (Ftoa.select f bits) as [[b flt]|]; [|reflexivity]. cbn [bind].
  destruct (_ =? 2 ^ ExtFloat.expbits flt - 1); [reflexivity|].
  destruct (if _ =? 0 then _ else _) as [exp mant].
  destruct (fmt =? Ftoa.ch_b); [apply fmtB_dst|apply ftoa_digits_dst].
Qed.

Lemma c35 : forall h base, 2 <= base <= 36 ->
  (forall i, 0 <= i < 2 ^ 64 ->
     exists s, Itoa.FormatUint h i base = Ret s /\ numeral base s /\ read base s = i) /\
  (forall i, - 2 ^ 63 <= i < 2 ^ 63 ->
     exists s, Itoa.FormatInt h i base = Ret s /\ denotes_int base s i).
Proof.
  intros h base Hb. split; intros i Hi; [apply FormatUint_ok|apply FormatInt_ok]; assumption.
Qed.

Lemma c35_inj : forall h base, 2 <= base <= 36 ->
  (forall i j, 0 <= i < 2 ^ 64 -> 0 <= j < 2 ^ 64 ->
     Itoa.FormatUint h i base = Itoa.FormatUint h j base -> i = j) /\
  (forall i j, - 2 ^ 63 <= i < 2 ^ 63 -> - 2 ^ 63 <= j < 2 ^ 63 ->
     Itoa.FormatInt h i base = Itoa.FormatInt h j base -> i = j) /\
  (forall i, - 2 ^ 63 <= i < 2 ^ 63 -> Itoa.Itoa h i = Itoa.FormatInt h i 10).
Proof.
  intros h base Hb. split; [|split]; [| |reflexivity].
  - intros i j Hi Hj E. destruct (FormatUint_ok h i base Hi Hb) as (s & E1 & _ & R1).
    destruct (FormatUint_ok h j base Hj Hb) as (t & E2 & _ & R2). rewrite E1, E2 in E. injection E as ->. congruence.
  - intros i j Hi Hj E. destruct (FormatInt_ok h i base Hi Hb) as (s & E1 & R1).
    destruct (FormatInt_ok h j base Hj Hb) as (t & E2 & R2). rewrite E1, E2 in E. injection E as ->.
    apply (denotes_int_fun base t); assumption.
Qed.

Lemma c36 : 
  (forall h dst i base, Itoa.AppendInt h dst i base =
     match Itoa.FormatInt h i base with Ret s => Ret (dst ++ s) | Panic => Panic end) /\
  (forall h dst i base, Itoa.AppendUint h dst i base =
     match Itoa.FormatUint h i base with Ret s => Ret (dst ++ s) | Panic => Panic end) /\
  (forall w o dst f fmt prec bits, Ftoa.AppendFloat w o dst f fmt prec bits =
     match Ftoa.FormatFloat w o f fmt prec bits with Ret s => Ret (dst ++ s) | Panic => Panic end).
Proof.
  split; [|split]; intros; [apply AppendInt_eq|apply AppendUint_eq|apply AppendFloat_eq].
Qed.

Lemma c37 : forall h dst base,
  (forall i, - 2 ^ 63 <= i < 2 ^ 63 ->
     (Itoa.FormatInt h i base = Panic <-> base < 2 \/ 36 < base) /\
     (Itoa.AppendInt h dst i base = Panic <-> base < 2 \/ 36 < base)) /\
  (forall i, 0 <= i < 2 ^ 64 ->
     (Itoa.FormatUint h i base = Panic <-> base < 2 \/ 36 < base) /\
     (Itoa.AppendUint h dst i base = Panic <-> base < 2 \/ 36 < base)).
Proof.
  intros h dst base. split; intros i Hi.
  - rewrite AppendInt_eq. destruct (legal_or base) as [L|L].
    + destruct (FormatInt_ok h i base Hi L) as (s & -> & _). cbn [bind]. split; (split; [discriminate|lia]).
    + destruct (illegal_base h i base L) as [_ ->]. cbn [bind]. tauto.
  - rewrite AppendUint_eq. destruct (legal_or base) as [L|L].
    + destruct (FormatUint_ok h i base Hi L) as (s & -> & _). cbn [bind]. split; (split; [discriminate|lia]).
    + destruct (illegal_base h i base L) as [-> _]. cbn [bind]. tauto.
Qed.

Lemma c38 : forall base,
  (forall i, - 2 ^ 63 <= i < 2 ^ 63 -> Itoa.FormatInt true i base = Itoa.FormatInt false i base) /\
  (forall i, 0 <= i < 2 ^ 64 -> Itoa.FormatUint true i base = Itoa.FormatUint false i base).
Proof.
  intros base. split; intros i Hi; destruct (legal_or base) as [L|L].
  - destruct (FormatInt_ok true i base Hi L) as (s & -> & R1). destruct (FormatInt_ok false i base Hi L) as (t & -> & R2).
    f_equal. apply (denotes_int_inj base s t i); assumption.
  - destruct (illegal_base true i base L) as [_ ->]. destruct (illegal_base false i base L) as [_ ->]. reflexivity.
  - destruct (FormatUint_ok true i base Hi L) as (s & -> & N1 & R1). destruct (FormatUint_ok false i base Hi L) as (t & -> & N2 & R2).
    f_equal. apply (numeral_inj base); [lia|assumption|assumption|congruence].
  - destruct (illegal_base true i base L) as [-> _]. destruct (illegal_base false i base L) as [-> _]. reflexivity.
Qed.

