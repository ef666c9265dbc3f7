(** C110: lengths and order of the texts of integers. *)
From Coq Require Import ZArith List Lia Bool String.
From Verif Require Import GoBase SpecText SpecLex ItoaFacts.
From Verif Require Itoa.
Import ListNotations.
Open Scope Z_scope.

Local Notation len l := (Z.of_nat (List.length l)).

Lemma numeral_len base s n : 2 <= base -> numeral base s -> 1 <= n -> (len s <= n <-> read base s < base ^ n).
Proof.
  intros Hb N Hn. pose proof (read_range base s Hb (proj1 (proj2 N))) as R. split.
  - intros L. apply Z.lt_le_trans with (1 := proj2 R). apply Z.pow_le_mono_r; lia.
  - intros L. destruct (Z_le_gt_dec (len s) n) as [|G]; [assumption|exfalso].
    assert (P : 0 < read base s).
    { destruct N as (N0 & A & Z0). destruct s as [|c t]; [contradiction|]. rewrite read_cons. inversion A as [|? ? Hc Ht]; subst. assert (0 < base ^ len t) by (apply Z.pow_pos_nonneg; lia). pose proof (read_range base t Hb Ht).
      assert (digit_val c <> 0). { intros E. apply digit_val_48 in E. subst c. specialize (Z0 eq_refl). injection Z0 as ->. cbn [List.length] in G. lia. } nia. }
    pose proof (numeral_lead base s Hb N P) as K. assert (base ^ n <= base ^ (len s - 1)) by (apply Z.pow_le_mono_r; lia). lia.
Qed.

Lemma digit_order c d : 0 <= digit_val c -> 0 <= digit_val d -> (digit_val c < digit_val d <-> c < d).
Proof.
  unfold digit_val. intros Hc Hd.
  destruct (Z.leb_spec 48 c), (Z.leb_spec c 57), (Z.leb_spec 97 c), (Z.leb_spec c 122), (Z.leb_spec 48 d), (Z.leb_spec d 57), (Z.leb_spec 97 d), (Z.leb_spec d 122); cbn [andb] in *; lia.
Qed.

Lemma lex_order base s : forall t, 2 <= base -> all_digits base s -> all_digits base t -> len s = len t -> (read base s < read base t <-> bytes_lt s t).
Proof.
  induction s as [|c s IH]; intros [|d t] Hb A A' L; cbn [List.length] in L; try lia.
  - cbn. lia.
  - inversion A as [|? ? Hc Hs]; subst. inversion A' as [|? ? Hd Ht]; subst. cbn [bytes_lt]. rewrite <- (IH t Hb Hs Ht ltac:(lia)), <- (digit_order c d) by lia. rewrite !read_cons.
    pose proof (read_range base s Hb Hs) as R1. pose proof (read_range base t Hb Ht) as R2. replace (len t) with (len s) in * by lia. set (P := base ^ len s) in *. set (r := read base s) in *. set (q := read base t) in *.
    split.
    + intros H. destruct (Z_lt_le_dec (digit_val c) (digit_val d)) as [|G]; [left; assumption|right]. assert (digit_val c = digit_val d) by nia. split; [apply digit_val_inj; lia|nia].
    + intros [H|[-> H]]; nia.
Qed.

Lemma c110_length : forall h base i s n, 2 <= base <= 36 -> 0 <= i < 2 ^ 64 -> 1 <= n -> Itoa.FormatUint h i base = Ret s -> (len s <= n <-> i < base ^ n).
Proof.
  intros h base i s n Hb Hi Hn E. destruct (FormatUint_ok h i base Hi Hb) as (s' & E' & N & R). assert (s = s') by congruence. subst s'. rewrite <- R. apply numeral_len; [lia|assumption|assumption].
Qed.

Lemma c110_length_int : forall h base i s n, 2 <= base <= 36 -> - 2 ^ 63 <= i < 2 ^ 63 -> 1 <= n -> Itoa.FormatInt h i base = Ret s -> (len s <= n + (if i <? 0 then 1 else 0) <-> Z.abs i < base ^ n).
Proof.
  intros h base i s n Hb Hi Hn E. destruct (FormatInt_ok h i base Hi Hb) as (s' & E' & D). assert (s = s') by congruence. subst s'. destruct D as [(P & N & R)|(P & t & -> & N & R)].
  - destruct (Z.ltb_spec i 0); [lia|]. rewrite Z.add_0_r, Z.abs_eq, <- R by lia. apply numeral_len; [lia|assumption|assumption].
  - destruct (Z.ltb_spec i 0); [|lia]. replace (Z.abs i) with (read base t) by lia. rewrite <- (numeral_len base t n) by (try lia; assumption). cbn [List.length]. lia.
Qed.

Lemma c110_longest : forall h base i s, 2 <= base <= 36 ->
  (0 <= i < 2 ^ 64 -> Itoa.FormatUint h i base = Ret s -> 1 <= len s <= 64) /\ (- 2 ^ 63 <= i < 2 ^ 63 -> Itoa.FormatInt h i base = Ret s -> 1 <= len s <= 65).
Proof.
  intros h base i s Hb. assert (P : 2 ^ 64 <= base ^ 64) by (apply Z.pow_le_mono_l; lia). split; intros Hi E.
  - split; [|apply (c110_length h base i s 64 Hb Hi ltac:(lia) E); lia]. destruct (FormatUint_ok h i base Hi Hb) as (s' & E' & N & R). assert (s = s') by congruence. subst s'. destruct N as [N _]. destruct s; [contradiction|cbn [List.length]; lia].
  - split.
    + destruct (FormatInt_ok h i base Hi Hb) as (s' & E' & D). assert (s = s') by congruence. subst s'. destruct D as [(_ & N & _)|(_ & t & -> & _)]; [destruct N as [N _]; destruct s; [contradiction|]|]; cbn [List.length]; lia.
    + pose proof (proj2 (c110_length_int h base i s 64 Hb Hi ltac:(lia) E) ltac:(lia)). destruct (Z.ltb_spec i 0); lia.
Qed.

Lemma c110_bases : forall h h' base base' i s s', 2 <= base <= base' -> base' <= 36 ->
  (0 <= i < 2 ^ 64 -> Itoa.FormatUint h i base = Ret s -> Itoa.FormatUint h' i base' = Ret s' -> len s' <= len s) /\
  (- 2 ^ 63 <= i < 2 ^ 63 -> Itoa.FormatInt h i base = Ret s -> Itoa.FormatInt h' i base' = Ret s' -> len s' <= len s).
Proof.
  intros h h' base base' i s s' Hb Hb'. split; intros Hi E E'.
  - pose proof (proj1 (c110_longest h base i s ltac:(lia)) Hi E) as L. apply (c110_length h' base' i s' (len s) ltac:(lia) Hi ltac:(lia) E'). pose proof (proj1 (c110_length h base i s (len s) ltac:(lia) Hi ltac:(lia) E) ltac:(lia)). assert (base ^ len s <= base' ^ len s) by (apply Z.pow_le_mono_l; lia). lia.
  - pose proof (proj2 (c110_longest h base i s ltac:(lia)) Hi E) as L. set (g := if i <? 0 then 1 else 0). assert (G : 1 <= len s - g).
    { unfold g. destruct (FormatInt_ok h i base Hi ltac:(lia)) as (u & Eu & D). assert (s = u) by congruence. subst u. destruct D as [(P & N & _)|(P & t & -> & N & _)]; [destruct (Z.ltb_spec i 0); lia|]. destruct (Z.ltb_spec i 0); [|lia]. destruct N as [N _]. destruct t; [contradiction|cbn [List.length]; lia]. }
    assert (K : len s' <= len s - g + g); [|lia]. apply (c110_length_int h' base' i s' (len s - g) ltac:(lia) Hi ltac:(lia) E'). pose proof (proj1 (c110_length_int h base i s (len s - g) ltac:(lia) Hi ltac:(lia) E)) as Q. fold g in Q. specialize (Q ltac:(lia)). assert (base ^ (len s - g) <= base' ^ (len s - g)) by (apply Z.pow_le_mono_l; lia). lia.
Qed.

Lemma numeral_order base s t : 2 <= base -> numeral base s -> numeral base t -> (read base s < read base t <-> len s < len t \/ len s = len t /\ bytes_lt s t).
Proof.
  intros Hb N N'. destruct (Z.lt_trichotomy (len s) (len t)) as [L|[L|L]].
  - split; [auto|]. intros _. pose proof (read_range base s Hb (proj1 (proj2 N))) as R. assert (1 <= len s) by (destruct N as [N _]; destruct s; [contradiction|cbn [List.length]; lia]).
    destruct (Z_lt_le_dec (read base s) (read base t)) as [|G]; [assumption|exfalso]. pose proof (proj2 (numeral_len base t (len s) Hb N' ltac:(lia)) ltac:(lia)). lia.
  - rewrite (lex_order base s t Hb (proj1 (proj2 N)) (proj1 (proj2 N')) L). split; [auto|]. intros [?|[_ ?]]; [lia|assumption].
  - split; [|intros [?|[? _]]; lia]. intros G. pose proof (read_range base t Hb (proj1 (proj2 N'))) as R. assert (1 <= len t) by (destruct N' as [N' _]; destruct t; [contradiction|cbn [List.length]; lia]).
    pose proof (proj2 (numeral_len base s (len t) Hb N ltac:(lia)) ltac:(lia)). lia.
Qed.

Lemma c110_order : forall h h' base i j s t, 2 <= base <= 36 -> 0 <= i < 2 ^ 64 -> 0 <= j < 2 ^ 64 ->
  Itoa.FormatUint h i base = Ret s -> Itoa.FormatUint h' j base = Ret t -> (i < j <-> len s < len t \/ len s = len t /\ bytes_lt s t).
Proof.
  intros h h' base i j s t Hb Hi Hj E E'. destruct (FormatUint_ok h i base Hi Hb) as (s' & Es & N & R). assert (s = s') by congruence. subst s'. destruct (FormatUint_ok h' j base Hj Hb) as (t' & Et & N' & R'). assert (t = t') by congruence. subst t'.
  rewrite <- R, <- R'. apply numeral_order; [lia|assumption|assumption].
Qed.

Lemma c110_complete : forall h base s, 2 <= base <= 36 ->
  (numeral base s -> read base s < 2 ^ 64 -> Itoa.FormatUint h (read base s) base = Ret s) /\
  (forall i, - 2 ^ 63 <= i < 2 ^ 63 -> denotes_int base s i -> Itoa.FormatInt h i base = Ret s).
Proof.
  intros h base s Hb. split.
  - intros N L. pose proof (read_range base s ltac:(lia) (proj1 (proj2 N))). destruct (FormatUint_ok h (read base s) base ltac:(lia) Hb) as (s' & E & N' & R). rewrite E. f_equal. apply (numeral_inj base); [lia|assumption|assumption|exact R].
  - intros i Hi D. destruct (FormatInt_ok h i base Hi Hb) as (s' & E & D'). rewrite E. f_equal. apply (denotes_int_inj base s' s i Hb D' D).
Qed.
