(** The integer formatter. *)
From Coq Require Import ZArith List Bool Lia.
From Verif Require Import GoBase SpecText BitFacts.
From Verif Require Itoa BigFloat.
Import ListNotations.
Open Scope Z_scope.

Lemma read_app base s t : read base (s ++ t) = read base s * base ^ Z.of_nat (length t) + read base t.
Proof.
  unfold read. rewrite fold_left_app. set (a := fold_left _ s 0). clearbody a.
  revert a. induction t as [|c t IH]; intros a; cbn [fold_left length].
  - rewrite Z.pow_0_r. lia.
  - rewrite IH. rewrite (IH (0 * base + digit_val c)). rewrite Nat2Z.inj_succ, Z.pow_succ_r by lia. ring.
Qed.

Lemma read_cons base c t : read base (c :: t) = digit_val c * base ^ Z.of_nat (length t) + read base t.
Proof. change (c :: t) with ([c] ++ t). rewrite read_app. unfold read at 1. cbn [fold_left]. f_equal. Qed.

Lemma read_snoc base s c : read base (s ++ [c]) = read base s * base + digit_val c.
Proof. rewrite read_app. cbn [length]. change (Z.of_nat 1) with 1. rewrite Z.pow_1_r. reflexivity. Qed.

Lemma read_range base s : 2 <= base -> all_digits base s -> 0 <= read base s < base ^ Z.of_nat (length s).
Proof.
  intros Hb. induction 1 as [|c t Hc Ht IH]; [cbn; lia|].
  rewrite read_cons. cbn [length]. rewrite Nat2Z.inj_succ, Z.pow_succ_r by lia.
  assert (0 < base ^ Z.of_nat (length t)) by (apply Z.pow_pos_nonneg; lia). nia.
Qed.

Lemma digit_val_inj c d : 0 <= digit_val c -> digit_val c = digit_val d -> c = d.
Proof.
  unfold digit_val. intros H E.
  destruct (48 <=? c) eqn:A1, (c <=? 57) eqn:A2, (97 <=? c) eqn:A3, (c <=? 122) eqn:A4,
    (48 <=? d) eqn:B1, (d <=? 57) eqn:B2, (97 <=? d) eqn:B3, (d <=? 122) eqn:B4; cbn in *; lia.
Qed.

Lemma digit_val_48 c : digit_val c = 0 -> c = 48.
Proof. intros H. apply digit_val_inj; [lia|rewrite H; reflexivity]. Qed.

Lemma numeral_lead base s : 2 <= base -> numeral base s -> 0 < read base s ->
  base ^ (Z.of_nat (length s) - 1) <= read base s.
Proof.
  intros Hb (Hne & Hd & Hl) Hp. destruct s as [|c t]; [contradiction|]. inversion Hd; subst.
  rewrite read_cons in *. cbn [length hd] in *. replace (Z.of_nat (S (length t)) - 1) with (Z.of_nat (length t)) by lia.
  pose proof (read_range base t Hb ltac:(assumption)).
  assert (digit_val c <> 0).
  { intros E. apply digit_val_48 in E. specialize (Hl E). injection Hl as _ ->. subst c. cbn in Hp. lia. }
  assert (0 < base ^ Z.of_nat (length t)) by (apply Z.pow_pos_nonneg; lia). nia.
Qed.

Lemma all_digits_inj base s : forall t, 2 <= base -> all_digits base s -> all_digits base t ->
  length s = length t -> read base s = read base t -> s = t.
Proof.
  induction s as [|c s IH]; intros [|d t] Hb Hs Ht Hl E; try discriminate; [reflexivity|].
  inversion Hs; subst. inversion Ht; subst. cbn [length] in Hl. injection Hl as Hl.
  rewrite !read_cons, Hl in E.
  pose proof (read_range base s Hb ltac:(assumption)). pose proof (read_range base t Hb ltac:(assumption)). rewrite Hl in *.
  set (P := base ^ Z.of_nat (length t)) in *.
  assert (digit_val c = digit_val d) by nia.
  f_equal; [apply digit_val_inj; [lia|assumption]|]. apply IH; auto. nia.
Qed.

Lemma numeral_inj base s t : 2 <= base -> numeral base s -> numeral base t -> read base s = read base t -> s = t.
Proof.
  intros Hb Hs Ht E. destruct (Z.eq_dec (read base s) 0) as [Z0|Z0].
  - assert (K : forall u, numeral base u -> read base u = 0 -> u = [48]).
    { intros u (Hne & Hd & Hl) H0. destruct u as [|c u]; [contradiction|]. inversion Hd; subst. apply Hl. cbn [hd].
      rewrite read_cons in H0. pose proof (read_range base u Hb ltac:(assumption)).
      assert (0 < base ^ Z.of_nat (length u)) by (apply Z.pow_pos_nonneg; lia).
      apply digit_val_48. nia. }
    rewrite (K s), (K t); auto. congruence.
  - pose proof (proj1 (proj2 Hs)) as Ds. pose proof (proj1 (proj2 Ht)) as Dt.
    pose proof (read_range base s Hb Ds). pose proof (read_range base t Hb Dt).
    pose proof (numeral_lead base s Hb Hs ltac:(lia)). pose proof (numeral_lead base t Hb Ht ltac:(lia)).
    apply (all_digits_inj base); auto.
    assert (Z.of_nat (length s) - 1 < Z.of_nat (length t)) by (apply (Z.pow_lt_mono_r_iff base); lia).
    assert (Z.of_nat (length t) - 1 < Z.of_nat (length s)) by (apply (Z.pow_lt_mono_r_iff base); lia). lia.
Qed.

Lemma numeral_head base s : 2 <= base <= 36 -> numeral base s -> hd 0 s <> 45.
Proof.
  intros Hb (Hne & Hd & _). destruct s as [|c t]; [contradiction|]. inversion Hd; subst. cbn. intros ->. cbn in *. lia.
Qed.

Lemma denotes_int_inj base s t i : 2 <= base <= 36 -> denotes_int base s i -> denotes_int base t i -> s = t.
Proof.
  intros Hb [(H1 & H2 & H3)|(H1 & u & -> & H2 & H3)] [(G1 & G2 & G3)|(G1 & v & -> & G2 & G3)]; try lia.
  - apply (numeral_inj base); auto; [lia|congruence].
  - f_equal. apply (numeral_inj base); auto; [lia|congruence].
Qed.

Lemma denotes_int_fun base s i j : 2 <= base <= 36 -> denotes_int base s i -> denotes_int base s j -> i = j.
Proof.
  intros Hb [(H1 & H2 & H3)|(H1 & u & -> & H2 & H3)] [(G1 & G2 & G3)|(G1 & v & E & G2 & G3)].
  - congruence.
  - subst s. apply numeral_head in H2; [|exact Hb]. contradiction.
  - apply numeral_head in G2; [|exact Hb]. contradiction.
  - injection E as <-. lia.
Qed.

(** The tables. *)
Lemma digits_index k : 0 <= k < 36 -> exists c, Itoa.index Itoa.digits k = Ret c /\ digit_val c = k.
Proof.
  intros Hk.
  assert (H : forallb (fun n => match Itoa.index Itoa.digits (Z.of_nat n) with Ret c => digit_val c =? Z.of_nat n | Panic => false end)
    (seq 0 36) = true) by (vm_compute; reflexivity).
  rewrite forallb_forall in H. specialize (H (Z.to_nat k)). rewrite Z2Nat.id in H by lia.
  specialize (H ltac:(apply in_seq; lia)). destruct (Itoa.index _ _) as [c|]; [|discriminate].
  exists c. split; [reflexivity|]. apply Z.eqb_eq, H.
Qed.

Lemma smalls_index k : 0 <= k < 100 -> exists c0 c1,
  Itoa.index Itoa.smallsString (k * 2) = Ret c0 /\ Itoa.index Itoa.smallsString (k * 2 + 1) = Ret c1 /\
  digit_val c0 = k / 10 /\ digit_val c1 = k mod 10.
Proof.
  intros Hk.
  assert (H : forallb (fun n => let k := Z.of_nat n in
    match Itoa.index Itoa.smallsString (k * 2), Itoa.index Itoa.smallsString (k * 2 + 1) with
    | Ret c0, Ret c1 => (digit_val c0 =? k / 10) && (digit_val c1 =? k mod 10) | _, _ => false end)
    (seq 0 100) = true) by (vm_compute; reflexivity).
  rewrite forallb_forall in H. specialize (H (Z.to_nat k)). cbv zeta in H. rewrite Z2Nat.id in H by lia.
  specialize (H ltac:(apply in_seq; lia)). destruct (Itoa.index _ (k * 2)) as [c0|]; [|discriminate].
  destruct (Itoa.index _ _) as [c1|]; [|discriminate]. apply andb_prop in H. destruct H as [H1 H2].
  exists c0, c1. apply Z.eqb_eq in H1, H2. auto.
Qed.

(** The number N is written by [out] below the remaining u. *)
Definition inv (base N u : Z) (out : bytes) : Prop :=
  N = u * base ^ Z.of_nat (length out) + read base out /\ all_digits base out /\ 0 <= u /\ (0 < u \/ out = []).

Lemma inv_len base N u out : 2 <= base -> N < 2 ^ 64 -> inv base N u out -> 0 < u -> Z.of_nat (length out) < 64.
Proof.
  intros Hb HN (E & D & _ & _) Hu. pose proof (read_range base out Hb D).
  destruct (Z_lt_ge_dec (Z.of_nat (length out)) 64) as [|G]; [assumption|exfalso].
  assert (2 ^ 64 <= base ^ Z.of_nat (length out)).
  { apply Z.le_trans with (2 ^ Z.of_nat (length out)); [apply Z.pow_le_mono_r; lia|apply Z.pow_le_mono_l; lia]. }
  nia.
Qed.

Lemma put_ok c out : Z.of_nat (length out) < 65 -> Itoa.put c out = Ret (c :: out).
Proof. intros H. unfold Itoa.put. change (64 + 1) with 65. destruct (Z.ltb_spec (Z.of_nat (length out)) 65); [reflexivity|lia]. Qed.

Lemma inv_step base N u out c : 2 <= base -> N < 2 ^ 64 -> inv base N u out -> base <= u -> digit_val c = u mod base ->
  Itoa.put c out = Ret (c :: out) /\ inv base N (u / base) (c :: out).
Proof.
  intros Hb HN Hi Hu Hc. split.
  - apply put_ok. pose proof (inv_len base N u out Hb HN Hi ltac:(lia)). lia.
  - destruct Hi as (E & D & U & _). repeat split.
    + rewrite read_cons, Hc. cbn [length]. rewrite Nat2Z.inj_succ, Z.pow_succ_r by lia.
      rewrite E at 1. rewrite (Z.div_mod u base) at 1 by lia. ring.
    + constructor; [|exact D]. rewrite Hc. apply Z.mod_pos_bound. lia.
    + apply Z.div_pos; lia.
    + left. apply Z.div_str_pos. lia.
Qed.

Lemma inv_last base N u out c : 2 <= base -> N < 2 ^ 64 -> inv base N u out -> u < base -> digit_val c = u ->
  Itoa.put c out = Ret (c :: out) /\ numeral base (c :: out) /\ read base (c :: out) = N /\ Z.of_nat (length (c :: out)) <= 64.
Proof.
  intros Hb HN Hi Hu Hc.
  assert (HL : Z.of_nat (length out) < 64).
  { destruct Hi as (E & D & U & [P|P]); [apply (inv_len base N u); auto|subst out; cbn; lia].
    repeat split; auto. }
  split; [apply put_ok; lia|]. destruct Hi as (E & D & U & P). split.
  - split; [discriminate|]. split; [constructor; [lia|exact D]|]. cbn [hd]. intros ->.
    change (digit_val 48) with 0 in Hc. destruct P as [P| ->]; [lia|reflexivity].
  - split; [rewrite read_cons, Hc; lia|]. cbn [length]. lia.
Qed.

Definition good (base N : Z) (o : outcome bytes) : Prop :=
  exists s, o = Ret s /\ numeral base s /\ read base s = N /\ Z.of_nat (length s) <= 64.

Definition width_ok (w : Z) : Prop := w = 32 \/ w = 64.

Lemma small_width w k : width_ok w -> 0 <= k < 100 -> k mod 2 ^ w = k.
Proof. intros [-> | ->] H; apply Z.mod_small; lia. Qed.

(** An upper bound for the rounds of a loop dividing by at least 2. *)
Lemma fuel_step u base n : 2 <= base -> 0 <= u < 2 ^ Z.of_nat (S n) -> 0 <= u / base < 2 ^ Z.of_nat n.
Proof.
  intros Hb Hu. split; [apply Z.div_pos; lia|]. apply Z.div_lt_upper_bound; [lia|].
  rewrite Nat2Z.inj_succ, Z.pow_succ_r in Hu by lia. nia.
Qed.

Lemma gen_loop_ok w base N n : width_ok w -> 2 <= base <= 36 -> N < 2 ^ 64 -> forall u out,
  inv base N u out -> u < 2 ^ Z.of_nat n -> good base N (Itoa.gen_loop (S n) w base u out).
Proof.
  intros Hw Hb HN. induction n as [|n IH]; intros u out Hi Hu.
  - cbn [Itoa.gen_loop]. destruct (Z.leb_spec base u); [cbn in Hu; lia|].
    assert (0 <= u) by apply Hi.
    rewrite small_width by (auto; lia). destruct (digits_index u ltac:(lia)) as (c & -> & Hc). cbn [bind].
    destruct (inv_last base N u out c ltac:(lia) HN Hi ltac:(lia) Hc) as (-> & H'). eexists; split; [reflexivity|exact H'].
  - remember (S n) as n1. cbn [Itoa.gen_loop]. subst n1. assert (0 <= u) by apply Hi.
    destruct (Z.leb_spec base u) as [L|L].
    + assert (N' : u <= N).
      { destruct Hi as (E & D & _ & _). pose proof (read_range base out ltac:(lia) D).
        assert (0 < base ^ Z.of_nat (length out)) by (apply Z.pow_pos_nonneg; lia). nia. }
      assert (E : u64 (u - u64 (u / base * base)) = u mod base).
      { pose proof (Z.mod_pos_bound u base ltac:(lia)). pose proof (Z.div_mod u base ltac:(lia)).
        unfold u64. rewrite (Z.mod_small (u / base * base)) by lia. rewrite Z.mod_small by lia. lia. }
      rewrite E. pose proof (Z.mod_pos_bound u base ltac:(lia)).
      rewrite small_width by (auto; lia). destruct (digits_index (u mod base) ltac:(lia)) as (c & -> & Hc). cbn [bind].
      destruct (inv_step base N u out c ltac:(lia) HN Hi L Hc) as (-> & H'). cbn [bind].
      apply IH; [exact H'|]. apply fuel_step; lia.
    + rewrite small_width by (auto; lia). destruct (digits_index u ltac:(lia)) as (c & -> & Hc). cbn [bind].
      destruct (inv_last base N u out c ltac:(lia) HN Hi ltac:(lia) Hc) as (-> & H'). eexists; split; [reflexivity|exact H'].
Qed.

Lemma pow2_loop_ok w sh N n : width_ok w -> 1 <= sh <= 5 -> N < 2 ^ 64 -> forall u out,
  inv (2 ^ sh) N u out -> u < 2 ^ Z.of_nat n -> good (2 ^ sh) N (Itoa.pow2_loop (S n) w (2 ^ sh) sh (2 ^ sh - 1) u out).
Proof.
  intros Hw Hs HN. assert (Hb : 2 <= 2 ^ sh <= 32).
  { split; [apply (Z.pow_le_mono_r 2 1 sh)|apply (Z.pow_le_mono_r 2 sh 5)]; lia. }
  set (base := 2 ^ sh) in *.
  induction n as [|n IH]; intros u out Hi Hu.
  - cbn [Itoa.pow2_loop]. destruct (Z.leb_spec base u); [cbn in Hu; lia|].
    assert (0 <= u) by apply Hi.
    rewrite small_width by (auto; lia). destruct (digits_index u ltac:(lia)) as (c & -> & Hc). cbn [bind].
    destruct (inv_last base N u out c ltac:(lia) HN Hi ltac:(lia) Hc) as (-> & H'). eexists; split; [reflexivity|exact H'].
  - remember (S n) as n1. cbn [Itoa.pow2_loop]. subst n1. assert (0 <= u) by apply Hi.
    destruct (Z.leb_spec base u) as [L|L].
    + assert (E : Z.land (u mod 2 ^ w) (base - 1) = u mod base).
      { unfold base. replace (2 ^ sh - 1) with (Z.ones sh) by (rewrite Z.ones_equiv; lia).
        rewrite Z.land_ones by lia. destruct Hw as [-> | ->].
        - replace 32 with (sh + (32 - sh)) by lia. rewrite Z.pow_add_r by lia. rewrite Z.rem_mul_r by lia.
          rewrite (Z.mul_comm (2 ^ sh) ((u / 2 ^ sh) mod _)), Z.mod_add by lia. apply Z.mod_mod. lia.
        - replace 64 with (sh + (64 - sh)) by lia. rewrite Z.pow_add_r by lia. rewrite Z.rem_mul_r by lia.
          rewrite (Z.mul_comm (2 ^ sh) ((u / 2 ^ sh) mod _)), Z.mod_add by lia. apply Z.mod_mod. lia. }
      rewrite E. pose proof (Z.mod_pos_bound u base ltac:(lia)).
      destruct (digits_index (u mod base) ltac:(lia)) as (c & -> & Hc). cbn [bind].
      destruct (inv_step base N u out c ltac:(lia) HN Hi L Hc) as (-> & H'). cbn [bind].
      rewrite Z.shiftr_div_pow2 by lia. fold base.
      apply IH; [exact H'|]. apply fuel_step; lia.
    + rewrite small_width by (auto; lia). destruct (digits_index u ltac:(lia)) as (c & -> & Hc). cbn [bind].
      destruct (inv_last base N u out c ltac:(lia) HN Hi ltac:(lia) Hc) as (-> & H'). eexists; split; [reflexivity|exact H'].
Qed.

(** Two digits at once: us agrees with u modulo 100. *)
Lemma put2_ok N u us out : N < 2 ^ 64 -> inv 10 N u out -> 100 <= u -> us mod 100 = u mod 100 ->
  exists out', Itoa.put2 us out = Ret out' /\ inv 10 N (u / 100) out'.
Proof.
  intros HN Hi Hu E. unfold Itoa.put2. rewrite E. rewrite Z.add_0_r.
  pose proof (Z.mod_pos_bound u 100 ltac:(lia)).
  destruct (smalls_index (u mod 100) ltac:(lia)) as (c0 & c1 & -> & -> & H0 & H1). cbn [bind].
  assert (E1 : u mod 100 mod 10 = u mod 10).
  { change 100 with (10 * 10). rewrite Z.rem_mul_r by lia. rewrite (Z.mul_comm 10 (_ mod _)), Z.mod_add by lia. apply Z.mod_mod. lia. }
  assert (E2 : u mod 100 / 10 = u / 10 mod 10).
  { change 100 with (10 * 10). rewrite Z.rem_mul_r by lia. rewrite (Z.mul_comm 10 (_ mod _)), Z.div_add by lia.
    rewrite Z.div_small; [lia|apply Z.mod_pos_bound; lia]. }
  destruct (inv_step 10 N u out c1 ltac:(lia) HN Hi ltac:(lia) ltac:(congruence)) as (-> & Hi1). cbn [bind].
  assert (10 <= u / 10) by (apply Z.div_le_lower_bound; lia).
  destruct (inv_step 10 N (u / 10) (c1 :: out) c0 ltac:(lia) HN Hi1 ltac:(lia) ltac:(congruence)) as (-> & Hi2).
  exists (c0 :: c1 :: out). split; [reflexivity|]. rewrite Z.div_div in Hi2 by lia. exact Hi2.
Qed.

Lemma hundreds_ok N n : N < 2 ^ 64 -> forall u out, inv 10 N u out -> u < 2 ^ Z.of_nat n ->
  exists us' out', Itoa.hundreds (S n) u out = Ret (us', out') /\ inv 10 N us' out' /\ us' < 100.
Proof.
  intros HN. induction n as [|n IH]; intros u out Hi Hu.
  - cbn [Itoa.hundreds]. destruct (Z.leb_spec 100 u); [cbn in Hu; lia|]. exists u, out. auto.
  - remember (S n) as n1. cbn [Itoa.hundreds]. subst n1. destruct (Z.leb_spec 100 u) as [L|L].
    + destruct (put2_ok N u u out HN Hi L eq_refl) as (out' & -> & H'). cbn [bind].
      apply IH; [exact H'|]. apply fuel_step; lia.
    + exists u, out. auto.
Qed.

Lemma pairs_ok N n : N < 2 ^ 64 -> forall u us out, inv 10 N u out -> 10 ^ (2 * Z.of_nat n + 1) <= u ->
  us = u mod 10 ^ (2 * Z.of_nat n + 1) ->
  exists out', Itoa.pairs n us out = Ret (u / 10 ^ (2 * Z.of_nat n) mod 10, out') /\ inv 10 N (u / 10 ^ (2 * Z.of_nat n)) out'.
Proof.
  intros HN. induction n as [|n IH]; intros u us out Hi Hu E.
  - cbn [Itoa.pairs]. exists out. change (2 * Z.of_nat 0) with 0. change (10 ^ 0) with 1. rewrite Z.div_1_r. subst us.
    split; [reflexivity|exact Hi].
  - cbn [Itoa.pairs]. set (k := 2 * Z.of_nat n) in *.
    replace (2 * Z.of_nat (S n)) with (k + 2) in * by lia. assert (Hk : 0 <= k) by lia.
    assert (P : 10 ^ (k + 2 + 1) = 100 * 10 ^ (k + 1)) by (replace (k + 2 + 1) with (2 + (k + 1)) by lia; rewrite Z.pow_add_r by lia; reflexivity).
    assert (0 < 10 ^ (k + 1)) by (apply Z.pow_pos_nonneg; lia).
    rewrite P in *.
    destruct (put2_ok N u us out HN Hi ltac:(lia)) as (out' & -> & H').
    { subst us. rewrite Z.rem_mul_r by lia. rewrite (Z.mul_comm 100), Z.mod_add by lia. apply Z.mod_mod. lia. }
    cbn [bind]. destruct (IH (u / 100) (us / 100) out' H') as (out'' & -> & H'').
    { apply Z.div_le_lower_bound; lia. }
    { subst us. rewrite Z.rem_mul_r by lia. rewrite (Z.mul_comm 100 (_ mod _)), Z.div_add by lia.
      rewrite Z.div_small by (apply Z.mod_pos_bound; lia). lia. }
    assert (0 < 10 ^ k) by (apply Z.pow_pos_nonneg; lia).
    rewrite Z.div_div in * by lia. replace (100 * 10 ^ k) with (10 ^ (k + 2)) in * by (rewrite Z.pow_add_r by lia; change (10 ^ 2) with 100; lia).
    exists out''. auto.
Qed.

Lemma lower9_ok N n : N < 2 ^ 64 -> forall u out, inv 10 N u out -> u < 2 ^ Z.of_nat n ->
  exists u' out', Itoa.lower9 (S n) u out = Ret (u', out') /\ inv 10 N u' out' /\ u' < 1000000000.
Proof.
  intros HN. induction n as [|n IH]; intros u out Hi Hu.
  - cbn [Itoa.lower9]. destruct (Z.leb_spec 1000000000 u); [cbn in Hu; lia|]. exists u, out. auto.
  - remember (S n) as n1. cbn [Itoa.lower9]. subst n1. assert (0 <= u) by apply Hi.
    destruct (Z.leb_spec 1000000000 u) as [L|L]; [|exists u, out; auto].
    assert (N' : u <= N).
    { destruct Hi as (E & D & _ & _). pose proof (read_range 10 out ltac:(lia) D).
      assert (0 < 10 ^ Z.of_nat (length out)) by (apply Z.pow_pos_nonneg; lia). nia. }
    pose proof (Z.mod_pos_bound u 1000000000 ltac:(lia)). pose proof (Z.div_mod u 1000000000 ltac:(lia)).
    assert (E : u32 (u64 (u - u64 (u / 1000000000 * 1000000000))) = u mod 1000000000).
    { unfold u32, u64. rewrite (Z.mod_small (u / 1000000000 * 1000000000)) by lia.
      rewrite (Z.mod_small (u - _)) by lia. rewrite Z.mod_small by lia. lia. }
    rewrite E. destruct (pairs_ok N 4 HN u (u mod 1000000000) out Hi L eq_refl) as (out' & -> & H').
    change (10 ^ (2 * Z.of_nat 4)) with 100000000 in *. cbn [bind].
    pose proof (Z.mod_pos_bound (u / 100000000) 10 ltac:(lia)).
    destruct (smalls_index ((u / 100000000) mod 10) ltac:(lia)) as (c0 & c1 & _ & -> & _ & Hc). cbn [bind].
    rewrite Z.mod_mod in Hc by lia.
    assert (10 <= u / 100000000) by (apply Z.div_le_lower_bound; lia).
    destruct (inv_step 10 N (u / 100000000) out' c1 ltac:(lia) HN H' ltac:(lia) Hc) as (-> & H''). cbn [bind].
    rewrite Z.div_div in H'' by lia. change (100000000 * 10) with 1000000000 in H''.
    apply IH; [exact H''|]. apply fuel_step; lia.
Qed.

Lemma base10_ok h N : 0 <= N < 2 ^ 64 -> good 10 N (Itoa.base10 h N).
Proof.
  intros HN. unfold Itoa.base10.
  assert (I0 : inv 10 N N []). { repeat split; try lia; [cbn; lia|constructor|auto]. }
  assert (K : exists u out, (if h then Itoa.lower9 65 N [] else Ret (N, [])) = Ret (u, out) /\
     inv 10 N u out /\ (if h then u32 u else u64 u) = u /\ u < 2 ^ 64).
  { destruct h.
    - destruct (lower9_ok N 64 ltac:(lia) N [] I0 ltac:(cbn [Z.of_nat]; lia)) as (u & out & -> & Hi & Hu).
      assert (0 <= u) by apply Hi. exists u, out. split; [reflexivity|]. split; [exact Hi|]. split; [apply Z.mod_small; lia|lia].
    - exists N, []. split; [reflexivity|]. split; [exact I0|]. split; [apply Z.mod_small; lia|lia]. }
  destruct K as (u & out & E1 & Hi & E2 & Hu). rewrite E1. cbn [bind]. rewrite E2.
  destruct (hundreds_ok N 64 ltac:(lia) u out Hi Hu) as (us & out' & -> & Hi' & Hus). cbn [bind].
  assert (0 <= us) by apply Hi'.
  destruct (smalls_index us ltac:(lia)) as (c0 & c1 & -> & -> & H0 & H1). cbn [bind].
  destruct (Z.leb_spec 10 us) as [L|L].
  - destruct (inv_step 10 N us out' c1 ltac:(lia) ltac:(lia) Hi' L H1) as (-> & Hi2). cbn [bind].
    destruct (inv_last 10 N (us / 10) (c1 :: out') c0 ltac:(lia) ltac:(lia) Hi2 ltac:(apply Z.div_lt_upper_bound; lia) H0) as (-> & H').
    eexists; split; [reflexivity|exact H'].
  - rewrite Z.mod_small in H1 by lia.
    destruct (inv_last 10 N us out' c1 ltac:(lia) ltac:(lia) Hi' L H1) as (-> & H'). cbn [bind].
    eexists; split; [reflexivity|exact H'].
Qed.

Lemma pow2_bases base : 2 <= base <= 36 -> Itoa.isPowerOfTwo base = true ->
  exists sh, 1 <= sh <= 5 /\ base = 2 ^ sh /\ Z.land (BigFloat.ctz base) 7 = sh.
Proof.
  intros Hb H.
  assert (C : forallb (fun n => let b := Z.of_nat n in if Itoa.isPowerOfTwo b then
      let sh := Z.land (BigFloat.ctz b) 7 in (1 <=? sh) && (sh <=? 5) && (b =? 2 ^ sh) else true) (seq 2 35) = true)
    by (vm_compute; reflexivity).
  rewrite forallb_forall in C. specialize (C (Z.to_nat base)). cbv zeta in C. rewrite Z2Nat.id in C by lia.
  specialize (C ltac:(apply in_seq; lia)). rewrite H in C. apply andb_prop in C. destruct C as [C C3].
  apply andb_prop in C. destruct C as [C1 C2].
  eexists. split; [|split; [|reflexivity]]; lia.
Qed.

Lemma formatBits_ok h u base (ng : bool) : 0 <= u < 2 ^ 64 -> 2 <= base <= 36 ->
  exists t, numeral base t /\ read base t = (if ng then u64 (- u) else u) /\
    Itoa.formatBits h u base ng = Ret (if ng then 45 :: t else t).
Proof.
  intros Hu Hb. unfold Itoa.formatBits.
  destruct (Z.ltb_spec base 2); [lia|].
  change (Z.of_nat (length Itoa.digits)) with 36. destruct (Z.ltb_spec 36 base); [lia|]. cbn [orb].
  set (N := if ng then u64 (- u) else u). set (w := if h then 32 else 64).
  assert (HN : 0 <= N < 2 ^ 64) by (unfold N; destruct ng; [apply Z.mod_pos_bound; lia|lia]).
  assert (Hw : width_ok w) by (unfold w, width_ok; destruct h; auto).
  assert (I0 : inv base N N []). { repeat split; try lia; [cbn; lia|constructor|auto]. }
  match goal with |- context [bind ?o _] => assert (G : good base N o) end.
  { destruct (Z.eqb_spec base 10) as [->|]; [apply base10_ok; exact HN|].
    destruct (Itoa.isPowerOfTwo base) eqn:P.
    - destruct (pow2_bases base Hb P) as (sh & Hsh & Eb & ->). rewrite Eb in *.
      apply (pow2_loop_ok w sh N 64); auto; [lia|]. apply HN.
    - apply (gen_loop_ok w base N 64); auto; [lia|]. apply HN. }
  destruct G as (s & -> & G1 & G2 & G3). cbn [bind]. exists s. split; [exact G1|]. split; [exact G2|].
  destruct ng; [|reflexivity]. apply put_ok. lia.
Qed.

Lemma small_ok i : 0 <= i < 100 -> exists s, Itoa.small i = Ret s /\ numeral 10 s /\ read 10 s = i.
Proof.
  intros Hi. unfold Itoa.small. destruct (Z.ltb_spec i 10).
  - destruct (digits_index i ltac:(lia)) as (c & -> & Hc). cbn [bind]. exists [c]. split; [reflexivity|]. split.
    + split; [discriminate|]. split; [constructor; [lia|constructor]|]. cbn [hd]. congruence.
    + unfold read. cbn [fold_left]. lia.
  - destruct (smalls_index i Hi) as (c0 & c1 & -> & -> & H0 & H1). cbn [bind]. exists [c0; c1]. split; [reflexivity|].
    pose proof (Z.mod_pos_bound i 10 ltac:(lia)). pose proof (Z.div_mod i 10 ltac:(lia)).
    assert (1 <= i / 10 < 10) by lia. split.
    + split; [discriminate|]. split; [repeat constructor; lia|]. cbn [hd]. intros ->. cbn in H0. lia.
    + unfold read. cbn [fold_left]. lia.
Qed.

Lemma FormatUint_ok h i base : 0 <= i < 2 ^ 64 -> 2 <= base <= 36 ->
  exists s, Itoa.FormatUint h i base = Ret s /\ numeral base s /\ read base s = i.
Proof.
  intros Hi Hb. unfold Itoa.FormatUint, Itoa.nSmalls.
  destruct ((i <? 100) && (base =? 10)) eqn:E.
  - apply andb_prop in E. destruct E as [E1 E2]. apply Z.eqb_eq in E2. subst base.
    destruct (small_ok i ltac:(lia)) as (s & -> & H). exists s. auto.
  - destruct (formatBits_ok h i base false Hi Hb) as (t & H1 & H2 & ->). exists t. auto.
Qed.

Lemma FormatInt_ok h i base : - 2 ^ 63 <= i < 2 ^ 63 -> 2 <= base <= 36 ->
  exists s, Itoa.FormatInt h i base = Ret s /\ denotes_int base s i.
Proof.
  intros Hi Hb. unfold Itoa.FormatInt, Itoa.nSmalls.
  destruct ((0 <=? i) && (i <? 100) && (base =? 10)) eqn:E.
  - apply andb_prop in E. destruct E as [E1 E2]. apply andb_prop in E1. apply Z.eqb_eq in E2. subst base.
    destruct (small_ok i ltac:(lia)) as (s & -> & H). exists s. split; [reflexivity|]. left. split; [lia|]. exact H.
  - destruct (formatBits_ok h (u64 i) base (i <? 0) ltac:(unfold u64; apply Z.mod_pos_bound; lia) Hb) as (t & H1 & H2 & ->).
    eexists. split; [reflexivity|]. destruct (Z.ltb_spec i 0) as [L|L].
    + right. split; [lia|]. exists t. split; [reflexivity|]. split; [exact H1|]. rewrite H2. unfold u64.
      replace (i mod 2 ^ 64) with (i + 2 ^ 64) by (apply (Z.mod_unique _ _ (-1)); lia).
      replace (- (i + 2 ^ 64)) with (- i + (-1) * 2 ^ 64) by lia. rewrite Z.mod_add by lia. apply Z.mod_small. lia.
    + left. split; [lia|]. split; [exact H1|]. rewrite H2. apply Z.mod_small. lia.
Qed.

Lemma illegal_base h i base : base < 2 \/ 36 < base ->
  Itoa.FormatUint h i base = Panic /\ Itoa.FormatInt h i base = Panic.
Proof.
  intros Hb. unfold Itoa.FormatUint, Itoa.FormatInt.
  assert (E : (base =? 10) = false) by (apply Z.eqb_neq; lia). rewrite E, !andb_false_r.
  unfold Itoa.formatBits. change (Z.of_nat (length Itoa.digits)) with 36.
  assert (T : (base <? 2) || (36 <? base) = true) by (apply orb_true_intro; destruct Hb; [left|right]; lia).
  rewrite T. auto.
Qed.

Lemma AppendInt_eq h dst i base : Itoa.AppendInt h dst i base = bind (Itoa.FormatInt h i base) (fun s => Ret (dst ++ s)).
Proof. unfold Itoa.AppendInt, Itoa.FormatInt. destruct (_ && _ && _); reflexivity. Qed.
Lemma AppendUint_eq h dst i base : Itoa.AppendUint h dst i base = bind (Itoa.FormatUint h i base) (fun s => Ret (dst ++ s)).
Proof. unfold Itoa.AppendUint, Itoa.FormatUint. destruct (_ && _); reflexivity. Qed.
