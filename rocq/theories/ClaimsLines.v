(** The lemmas behind C87: the generated lines denote the entries of the tables. *)
From Coq Require Import ZArith Reals Lia Lra Bool String List.
From Flocq Require Import Core.
From Verif Require Import GoBase GoFmt GenTests GenLines.
From Verif Require BigFloat Ftoa GenText ExtFloat.
From Verif Require Import Spec BitFacts RoundFacts IeeeFacts BigFacts BigFacts2 FmtFacts ClaimsGen PkgFacts.
From Verif Require ClaimsFtoa ClaimsPpc Float128ppc.
From Verif Require Import SpecText SpecDec SpecFtoa SpecFmt SpecGo.
Import ListNotations.
Open Scope Z_scope.

Definition hexb (d : Z) : Z := if d <? 10 then 48 + d else 55 + d.

Lemma hexb_val d : 0 <= d < 16 -> hex_val (hexb d) = d.
Proof.
  intros H. unfold hexb, hex_val. destruct (Z.ltb_spec d 10).
  - destruct (Z.leb_spec 48 (48 + d)), (Z.leb_spec (48 + d) 57); cbn [andb]; lia.
  - destruct (Z.leb_spec 48 (55 + d)), (Z.leb_spec (55 + d) 57), (Z.leb_spec 65 (55 + d)), (Z.leb_spec (55 + d) 70); cbn [andb]; lia.
Qed.

Lemma fmt_X_text n v : (1 <= n)%nat -> 0 <= v < 16 ^ Z.of_nat n -> hex_text n (fmt_X (Z.of_nat n) v) v.
Proof.
  intros Hn Hv. destruct (digits_of_spec 16 v ltac:(lia) ltac:(lia)) as (I1 & I2 & _ & _ & I5 & _).
  specialize (I5 (Z.of_nat n) ltac:(lia) ltac:(lia)). unfold fmt_X.
  change (map (fun d : Z => if d <? 10 then 48 + d else 55 + d) (digits_of 16 v)) with (map hexb (digits_of 16 v)).
  rewrite map_length. set (ds := digits_of 16 v) in *. set (k := Z.to_nat (Z.of_nat n - Z.of_nat (length ds))).
  assert (R : repeat 48 k ++ map hexb ds = map hexb (repeat 0 k ++ ds)).
  { rewrite map_app. f_equal. clear. induction k; [reflexivity|]. cbn [repeat map]. f_equal. exact IHk. }
  assert (D : Forall (is_digit 16) (repeat 0 k ++ ds)).
  { apply Forall_app. split; [|exact I2]. clear. induction k; [constructor|]. cbn [repeat]. constructor; [unfold is_digit; lia|exact IHk]. }
  assert (L : length (repeat 0 k ++ ds) = n) by (rewrite app_length, repeat_length; lia).
  assert (V : val 16 (repeat 0 k ++ ds) = v).
  { rewrite val_app, val_zeros, I1. lia. }
  rewrite R. revert D L V. generalize (repeat 0 k ++ ds). intros l D L V.
  split; [rewrite map_length; exact L|]. split.
  - apply Forall_map. revert D. apply Forall_impl. intros d Hd. cbn. rewrite hexb_val by exact Hd. unfold is_digit in Hd. lia.
  - rewrite <- V. unfold val. clear V L. generalize 0 at 1 2. induction D as [|d l Hd _ IH]; intros a; [reflexivity|].
    cbn [map fold_left]. rewrite hexb_val by exact Hd. replace (a * 16 + d) with (16 * a + d) by lia. apply IH.
Qed.

(** %v prints a constant that denotes the float64. *)
Lemma fmt_v_denotes x s v : 0 <= x < 2 ^ 64 -> ieee 52 11 x = VNum s v -> exists t, fmt_v x = Ret t /\ go_float64 t (literal x).
Proof.
  intros Hx Ex.
  assert (Vs : exists u, v = sgnR s u /\ (0 <= u)%R).
  { destruct (enc_surj 52 11 x ltac:(lia) ltac:(lia) Hx) as (s' & E & F & HE & HF & Q). rewrite Q in Ex. rewrite ieee_enc in Ex by lia.
    unfold ieee_parts in Ex. destruct (E =? _); [destruct (F =? 0); discriminate|].
    assert (Pos : forall M e, 0 <= M -> (0 <= IZR M * p2 e)%R) by (intros; apply Rmult_le_pos; [apply IZR_le; assumption|apply Rlt_le, p2_pos]).
    destruct (E =? 0); apply VNum_inj in Ex; destruct Ex as [-> <-]; eexists; (split; [reflexivity|]); apply Pos; lia. }
  destruct Vs as (u & -> & Hu).
  pose proof (fits_ieee 52 11 x s _ ltac:(lia) ltac:(lia) Hx Ex) as [Fx _].
  assert (U : (Rabs u < p2 1024)%R).
  { destruct Fx as [_ Fx]. change (2 ^ (11 - 1)) with 1024 in Fx. destruct s; cbn [sgnR] in Fx; [rewrite Rabs_Ropp in Fx|]; exact Fx. }
  assert (Ru : rn 52 11 (sgnR s u) = sgnR s u) by (apply fits_rn; [lia|exact Fx]).
  assert (A : as_float 64 x 52 11 x s).
  { split; [exact Hx|]. split; [exact Hx|]. exists (sgnR s u). split; [exact Ex|]. split; [|left; auto].
    rewrite Ex, ieee_round_num; [rewrite Ru; reflexivity|]. rewrite Ru. apply (proj2 Fx). }
  destruct (ClaimsFtoa.c52 64 true x 103 (-1) 64 52 11 x s u (or_intror eq_refl) A Ex ltac:(auto) ltac:(lia))
    as (t & fp & z & Ht & _ & Hp & Hz & Hr).
  exists t. split; [exact Ht|].
  assert (N : rn 52 11 z = u).
  { rewrite Ex in Hr. unfold ieee_round in Hr. destruct (Rle_bool _ _); [discriminate|]. apply VNum_inj in Hr. destruct Hr as [_ Hr].
    destruct s; cbn [sgnR] in Hr; [|exact Hr]. unfold rn in Hr. rewrite round_NE_opp in Hr. fold (rn 52 11 z) in Hr. lra. }
  assert (Lx : 0 <= literal x < 2 ^ 64) by (unfold literal; destruct (x =? 2 ^ 63); lia).
  split; [exact Lx|]. left. exists s, z. split; [|split; [exact Hz|split]].
  - destruct Hp as [([C|C] & _)|[(C & _)|(_ & Hf & He)]]; try discriminate. change (103 - 2) with 101 in He. exists fp.
    destruct (Req_dec z 0) as [Z0|Z0]; [left; apply Hf; left; exact Z0|].
    destruct (Rlt_or_le z (p10 (-4))) as [L|L]; [right; left; apply He; left; lra|].
    destruct (Rlt_or_le z (p10 6)) as [M|M]; [left; apply Hf; right; split; assumption|right; left; apply He; right; split; assumption].
  - rewrite N. intros U0. unfold literal. rewrite U0, sgnR_0 in Ex. destruct (Z.eqb_spec x (2 ^ 63)) as [|X]; [reflexivity|]. destruct s.
    + exfalso. apply X. apply (ieee_inj 52 11); try lia; [|rewrite Ex; discriminate]. rewrite Ex. symmetry. exact ClaimsPpc.negzero64.
    + apply (ieee_inj 52 11); try lia; [|rewrite Ex; discriminate]. rewrite Ex. symmetry. exact ClaimsPpc.zero64.
  - rewrite N. intros U0. split; [rewrite Rabs_pos_eq in U by exact Hu; exact U|]. unfold literal.
    destruct (Z.eqb_spec x (2 ^ 63)) as [X|X]; [|exact Ex]. exfalso.
    pose proof ClaimsPpc.negzero64 as Q. change Float128ppc.math_NegZero with (2 ^ 63) in Q. rewrite X, Q in Ex. apply VNum_inj in Ex.
    destruct Ex as [<- Ex]. cbn [sgnR] in Ex. apply U0. lra.
Qed.

(** ** The comment *)
Definition plainb (c : Z) : bool := (32 <=? c) && (c <? 127) && negb (c =? 34) && negb (c =? 92).
Lemma plainb_ok c : plainb c = true -> plain c.
Proof.
  unfold plainb, plain. rewrite !andb_true_iff, !negb_true_iff, Z.leb_le, Z.ltb_lt, !Z.eqb_neq. tauto.
Qed.
Lemma plain_list l : forallb plainb l = true -> Forall plain l.
Proof. intros H. rewrite forallb_forall in H. apply Forall_forall. intros c Hc. apply plainb_ok, H, Hc. Qed.

Lemma digit_plain d : 0 <= d < 36 -> plain (digit_byte d).
Proof. intros H. unfold digit_byte, plain. destruct (Z.ltb_spec d 10); lia. Qed.

Lemma digits_plain base n : 2 <= base <= 36 -> 0 <= n -> Forall plain (map digit_byte (digits_of base n)).
Proof.
  intros Hb Hn. destruct (digits_of_spec base n ltac:(lia) Hn) as (_ & D & _). apply Forall_map. revert D. apply Forall_impl.
  intros d Hd. apply digit_plain. unfold is_digit in Hd. lia.
Qed.

Lemma fmt_d_plain n : Forall plain (fmt_d n).
Proof.
  unfold fmt_d. destruct (Z.ltb_spec n 0); [constructor; [unfold plain; lia|]|]; apply digits_plain; lia.
Qed.

Lemma repeat_plain c k : plain c -> Forall plain (repeat c k).
Proof. intros H. induction k; [constructor|]. cbn [repeat]. constructor; assumption. Qed.

Lemma fmt_b_plain w n : 0 <= n -> Forall plain (fmt_b w n).
Proof. intros H. unfold fmt_b. apply Forall_app. split; [apply repeat_plain; unfold plain; lia|apply digits_plain; lia]. Qed.

Lemma collect2 {A C} (R : A -> C -> Prop) l k : Forall2 (fun o p => exists a b, o = Ret a /\ p = Ret b /\ R a b) l k ->
  exists r q, collect l = Ret r /\ collect k = Ret q /\ Forall2 R r q.
Proof.
  induction 1 as [|o p l k (a & b & -> & -> & H) _ (r & q & E & K & F)].
  - exists [], []. repeat split. constructor.
  - exists (a :: r), (b :: q). cbn [collect bind]. rewrite E, K. repeat split. constructor; assumption.
Qed.

(** ** binary16 *)
Lemma line16_ok s lead E expo F : entry16 lead E expo -> 0 <= F < 2 ^ 10 -> s = 0 \/ s = 1 ->
  exists t g, line16 lead s E expo F = Ret t /\ gen16 lead s E expo F = Ret g /\ entry16_text t g.
Proof.
  intros HE HF Hs.
  assert (T : exists t, s = Z.b2z t) by (destruct Hs as [-> | ->]; [exists false|exists true]; reflexivity). destruct T as [ng ->].
  destruct (gen16_ok ng lead E expo F HE HF) as (x & G & Hx & Vx & v & Vb). rewrite Vb in Vx.
  assert (E5 : 0 <= E < 31) by (destruct HE; lia).
  pose proof (enc_range 10 5 ng E F ltac:(lia) ltac:(lia) ltac:(lia) ltac:(lia)) as Rb.
  set (bits := enc 10 5 ng E F) in *.
  assert (C : forall c, Forall plain c -> comment (B " // " ++ c)) by (intros c Hc; exists c; auto).
  assert (Cs : Forall plain (B "+" ++ B "0b" ++ fmt_d lead ++ B "." ++ fmt_b 10 F ++ B "p0")).
  { rewrite !Forall_app. pose proof (fmt_d_plain lead). pose proof (fmt_b_plain 10 F ltac:(lia)).
    repeat split; try assumption; apply plain_list; reflexivity. }
  pose proof (fmt_X_text 4 bits ltac:(lia) ltac:(change (16 ^ Z.of_nat 4) with (2 ^ 16); lia)) as HX.
  change (Z.of_nat 4) with 4 in HX.
  revert G. unfold gen16, line16. cbv zeta.
  set (src := B "+" ++ B "0b" ++ fmt_d lead ++ B "." ++ fmt_b 10 F ++ B "p0") in *.
  destruct (ParseFloat src 53) as [m|]; cbn [bind]; [|discriminate].
  destruct (BigFloat.Float64 m) as [mantissa ac]. destruct (negb _); [discriminate|].
  destruct (f64_mul (pow_m1 (Z.b2z ng)) (pow_2 expo)) as [p|]; cbn [bind]; [|discriminate].
  destruct (f64_mul p mantissa) as [want|]; cbn [bind]; [|discriminate].
  rewrite lor_fields by lia. fold bits. intros G.
  assert (Ex : (if bits =? 0x8000 then 2 ^ 63 else literal want) = x) by congruence. clear G.
  destruct (Z.eqb_spec bits 0x8000) as [Q|Q].
  - eexists _, (bits, x). split; [reflexivity|]. split; [rewrite Ex; reflexivity|].
    exists (fmt_X 4 bits), (B "math.Copysign(0, -1)"), (B " // " ++ src).
    split; [reflexivity|]. cbn [fst snd]. split; [exact HX|]. split; [|apply C; exact Cs].
    split; [exact Hx|]. right. left. split; [reflexivity|]. rewrite <- Ex. exact ClaimsPpc.negzero64.
  - assert (Vw : exists sw vw, ieee 52 11 want = VNum sw vw /\ 0 <= want < 2 ^ 64).
    { unfold literal in Ex. destruct (Z.eqb_spec want (2 ^ 63)) as [Q63|_]; [|rewrite <- Ex in Vx, Hx; eauto].
      exists true, 0%R. rewrite Q63. split; [exact ClaimsPpc.negzero64|lia]. }
    destruct Vw as (sw & vw & Vw & Rw). destruct (fmt_v_denotes want sw vw Rw Vw) as (t & Ht & Hd). rewrite Ht. cbn [bind].
    eexists _, (bits, x). split; [reflexivity|]. split; [rewrite Ex; reflexivity|].
    exists (fmt_X 4 bits), t, (B " // " ++ src).
    split; [reflexivity|]. cbn [fst snd]. split; [exact HX|]. split; [rewrite <- Ex; exact Hd|apply C; exact Cs].
Qed.

Lemma c87_16 : exists nl dl ns ds, linesNormalized16 = Ret nl /\ linesDenormalized16 = Ret dl /\
  getNormalized16 = Ret ns /\ getDenormalized16 = Ret ds /\ Forall2 entry16_text nl ns /\ Forall2 entry16_text dl ds.
Proof.
  assert (N : exists nl ns, linesNormalized16 = Ret nl /\ getNormalized16 = Ret ns /\ Forall2 entry16_text nl ns).
  { apply collect2. apply Forall2_flat_in. intros s Hs. apply Forall2_flat_in. intros e He. apply Forall2_map_in. intros m Hm.
    apply range_in in Hs, He, Hm. apply line16_ok; [left; lia|lia|lia]. }
  assert (D : exists nl ns, linesDenormalized16 = Ret nl /\ getDenormalized16 = Ret ns /\ Forall2 entry16_text nl ns).
  { apply collect2. apply Forall2_flat_in. intros s Hs. apply Forall2_map_in. intros m Hm.
    apply range_in in Hs, Hm. apply line16_ok; [right; lia|lia|lia]. }
  destruct N as (nl & ns & N1 & N2 & N3). destruct D as (dl & ds & D1 & D2 & D3). exists nl, dl, ns, ds. auto 10.
Qed.

(** ** binary128 *)
Lemma num_not_inf w s v : 0 <= w < 2 ^ 64 -> ieee 52 11 w = VNum s v -> BigFloat.f_isinf 52 11 w = false.
Proof.
  intros Hw Ew. destruct (enc_surj 52 11 w ltac:(lia) ltac:(lia) Hw) as (s' & E & F & HE & HF & ->).
  rewrite ieee_enc in Ew by lia. unfold ieee_parts in Ew. unfold BigFloat.f_isinf. rewrite f_exp_enc by lia.
  destruct (E =? 2 ^ 11 - 1); [destruct (F =? 0); discriminate|reflexivity].
Qed.

Lemma line128_ok text s lead E expo F1 F2 : (forall x, wf x -> Forall plain (text x)) -> entry128 lead E expo -> 0 <= F1 < 2 ^ 48 -> 0 <= F2 < 2 ^ 64 -> s = 0 \/ s = 1 ->
  exists t g, line128 text lead s E expo F1 F2 = Ret t /\ gen128 text lead s E expo F1 F2 = Ret g /\
    entry128_text t (ga g) (gb g) (gwant g) (gwant64 g) (gacc64 g).
Proof.
  intros Ht HE H1 H2 Hs.
  assert (T : exists t, s = Z.b2z t) by (destruct Hs as [-> | ->]; [exists false|exists true]; reflexivity). destruct T as [ng ->].
  destruct (gen128_parse ng lead E expo F1 F2 HE H1 H2) as (m & _ & Wm & (v & Vm & _) & PF).
  destruct (gen128_big text ng lead E expo F1 F2 HE H1 H2) as (m' & _ & _ & _ & G).
  assert (E5 : 0 <= E < 0x7FFF) by (destruct HE; lia).
  pose proof (enc_range 48 15 ng E F1 ltac:(lia) ltac:(lia) ltac:(lia) ltac:(lia)) as Ra.
  set (a := enc 48 15 ng E F1) in *.
  set (src := (if Z.b2z ng =? 1 then B "-" else B "+") ++ B "0b" ++ fmt_d lead ++ B "." ++ (fmt_b 48 F1 ++ fmt_b 64 F2) ++ B "p" ++ fmt_d expo) in *.
  assert (Cs : Forall plain src).
  { unfold src. rewrite !Forall_app. pose proof (fmt_d_plain lead). pose proof (fmt_d_plain expo).
    pose proof (fmt_b_plain 48 F1 ltac:(lia)). pose proof (fmt_b_plain 64 F2 ltac:(lia)).
    split; [destruct ng; apply plain_list; reflexivity|]. repeat split; try assumption; apply plain_list; reflexivity. }
  pose proof (fmt_X_text 16 a ltac:(lia) ltac:(change (16 ^ Z.of_nat 16) with (2 ^ 64); lia)) as HXa.
  pose proof (fmt_X_text 16 F2 ltac:(lia) ltac:(change (16 ^ Z.of_nat 16) with (2 ^ 64); lia)) as HXb.
  change (Z.of_nat 16) with 16 in HXa, HXb.
  clear G. unfold line128, gen128. cbv zeta.
  repeat match goal with |- context [ParseFloat ?z 113] => replace (ParseFloat z 113) with (Ret m) by (symmetry; exact PF) end. cbn [bind]. rewrite lor_fields128 by lia. fold a.
  pose proof (ToFloat_val 52 11 m ltac:(lia) ltac:(lia) ltac:(unfold BigFloat.MaxExp; lia) Wm) as TF.
  unfold BigFloat.Float64. destruct (BigFloat.ToFloat 52 11 m) as [w ac]. rewrite Vm in TF. destruct TF as (Rw & Ew & _).
  change (2 ^ (52 + 11 + 1)) with (2 ^ 64) in Rw.
  assert (I1 : ieee 52 11 0x7FF0000000000000 = VInf false) by reflexivity.
  assert (I2 : ieee 52 11 0xFFF0000000000000 = VInf true) by reflexivity.
  set (x := if w =? 2 ^ 63 then 2 ^ 63 else if BigFloat.f_isinf 52 11 w then w else literal w).
  assert (L : exists lit, (if w =? 2 ^ 63 then Ret (B "math.Copysign(0, -1)")
          else if w =? 0x7FF0000000000000 then Ret (B "math.Inf(+1)")
          else if w =? 0xFFF0000000000000 then Ret (B "math.Inf(-1)")
          else fmt_v w) = Ret lit /\ go_float64 lit x).
  { unfold x. destruct (Z.eqb_spec w (2 ^ 63)) as [Q|Q].
    - eexists. split; [reflexivity|]. split; [lia|]. right. left. split; [reflexivity|]. exact ClaimsPpc.negzero64.
    - destruct (Z.eqb_spec w 0x7FF0000000000000) as [->|Q1].
      + change (BigFloat.f_isinf 52 11 0x7FF0000000000000) with true. cbv iota. eexists. split; [reflexivity|]. split; [lia|]. right. right. left. split; [reflexivity|exact I1].
      + destruct (Z.eqb_spec w 0xFFF0000000000000) as [->|Q2].
        * change (BigFloat.f_isinf 52 11 0xFFF0000000000000) with true. cbv iota. eexists. split; [reflexivity|]. split; [lia|]. right. right. right. split; [reflexivity|exact I2].
        * assert (Nw : exists sw vw, ieee 52 11 w = VNum sw vw).
          { destruct (ieee 52 11 w) as [t|t|t u] eqn:K; [|exfalso|eauto].
            - exfalso. symmetry in Ew. exact (round_not_nan _ _ _ _ _ Ew).
            - destruct t; [apply Q2|apply Q1]; apply (ieee_inj 52 11); try lia; try (rewrite K; discriminate); rewrite K; symmetry; assumption. }
          destruct Nw as (sw & vw & Vw). rewrite (num_not_inf w sw vw Rw Vw). exact (fmt_v_denotes w sw vw Rw Vw). }
  destruct L as (lit & -> & HL). cbn [bind]. eexists _, _. split; [reflexivity|]. split; [reflexivity|]. cbn [ga gb gwant gwant64 gacc64].
  exists (fmt_X 16 a), (fmt_X 16 F2), lit, (fmt_acc ac), (B " // " ++ src).
  split; [unfold fmt_q, src; change (B "}, // ") with (B "}," ++ B " // "); rewrite <- !app_assoc; reflexivity|].
  split; [exact HXa|]. split; [exact HXb|]. split; [apply Ht; exact Wm|]. split; [exact HL|]. split; [destruct ac; unfold accuracy_name; auto|].
  exists src. auto.
Qed.

Lemma c87_128 : forall text exps mants, (forall x, wf x -> Forall plain (text x)) ->
  Forall (fun e => 1 <= e <= 0x7FFE) exps -> Forall (fun m => 0 <= fst m < 2 ^ 48 /\ 0 <= snd m < 2 ^ 64) mants ->
  exists nl dl ns ds, linesNormalized128 text exps mants = Ret nl /\ linesDenormalized128 text mants = Ret dl /\
  getNormalized128 text exps mants = Ret ns /\ getDenormalized128 text mants = Ret ds /\
  Forall2 (fun t g => entry128_text t (ga g) (gb g) (gwant g) (gwant64 g) (gacc64 g)) nl ns /\
  Forall2 (fun t g => entry128_text t (ga g) (gb g) (gwant g) (gwant64 g) (gacc64 g)) dl ds.
Proof.
  intros text exps mants Ht He Hm. rewrite Forall_forall in He, Hm.
  set (R := fun t g => entry128_text t (ga g) (gb g) (gwant g) (gwant64 g) (gacc64 g)).
  assert (N : exists nl ns, linesNormalized128 text exps mants = Ret nl /\ getNormalized128 text exps mants = Ret ns /\ Forall2 R nl ns).
  { apply collect2. apply Forall2_flat_in. intros s Hs. apply Forall2_flat_in. intros e He'. apply Forall2_map_in. intros m Hm'.
    apply range_in in Hs. pose proof (He e He'). destruct (Hm m Hm'). apply line128_ok; try assumption; [left; lia|lia]. }
  assert (D : exists nl ns, linesDenormalized128 text mants = Ret nl /\ getDenormalized128 text mants = Ret ns /\ Forall2 R nl ns).
  { apply collect2. apply Forall2_flat_in. intros s Hs. apply Forall2_map_in. intros m Hm'.
    apply range_in in Hs. destruct (Hm m Hm'). apply line128_ok; try assumption; [right; lia|lia]. }
  destruct N as (nl & ns & N1 & N2 & N3). destruct D as (dl & ds & D1 & D2 & D3). exists nl, dl, ns, ds.
  repeat (split; [assumption|]). assumption.
Qed.
