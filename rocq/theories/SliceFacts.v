(** Appending to slices: append composes, and the functions of Slices.v follow those of
    FtoaArr.v and Itoa.v. *)
From Coq Require Import ZArith String List Bool Arith Lia.
From Verif Require Import GoBase BigFloat.
From Verif Require Import DecimalArr ExtArr Slices SpecSlice.
From Verif Require Decimal ExtFloat Ftoa FtoaArr Itoa.
Import ListNotations.
Open Scope Z_scope.
Import ExtFloat (floatInfo, mantbits, expbits, bias).
Import Ftoa (is_e, is_f, is_g, ch_b, exp_text).

Lemma length_overwrite : forall l p xs, (p + length xs <= length l)%nat ->
  length (overwrite l p xs) = length l.
Proof.
  intros l p xs H. unfold overwrite. rewrite !app_length, firstn_length, skipn_length. lia.
Qed.

Lemma nth_overwrite_out : forall l p xs i, (p + length xs <= length l)%nat ->
  (i < p \/ p + length xs <= i)%nat -> nth i (overwrite l p xs) 0 = nth i l 0.
Proof.
  intros l p xs i H Hi. unfold overwrite. destruct Hi as [Hi|Hi].
  - rewrite app_nth1 by (rewrite firstn_length; lia).
    rewrite <- (firstn_skipn p l) at 2. rewrite app_nth1 by (rewrite firstn_length; lia). reflexivity.
  - rewrite app_nth2 by (rewrite firstn_length; lia).
    rewrite app_nth2 by (rewrite firstn_length; lia).
    rewrite firstn_length.
    transitivity (nth i (firstn (p + length xs) l ++ skipn (p + length xs) l) 0);
      [|rewrite firstn_skipn; reflexivity].
    rewrite (app_nth2 (firstn (p + length xs) l)) by (rewrite firstn_length; lia).
    f_equal. rewrite firstn_length. lia.
Qed.

Lemma nth_overwrite_in : forall l p xs j, (p + length xs <= length l)%nat ->
  (j < length xs)%nat -> nth (p + j) (overwrite l p xs) 0 = nth j xs 0.
Proof.
  intros l p xs j H Hj. unfold overwrite.
  rewrite app_nth2 by (rewrite firstn_length; lia).
  rewrite firstn_length. replace (p + j - Nat.min p (length l))%nat with j by lia.
  rewrite app_nth1 by lia. reflexivity.
Qed.

Lemma length_set : forall h a l, length (set_array h a l) = length h.
Proof.
  intros h a l. unfold set_array. destruct (a <? length h)%nat eqn:E; [|reflexivity].
  apply Nat.ltb_lt in E. rewrite app_length, firstn_length. cbn [length]. rewrite skipn_length. lia.
Qed.

Lemma nth_set_eq : forall h a l, (a < length h)%nat -> nth a (set_array h a l) [] = l.
Proof.
  intros h a l H. unfold set_array. apply Nat.ltb_lt in H as E. rewrite E.
  rewrite app_nth2 by (rewrite firstn_length; lia).
  rewrite firstn_length. replace (a - Nat.min a (length h))%nat with 0%nat by lia. reflexivity.
Qed.

Lemma nth_set_neq : forall h a l b, a <> b -> nth b (set_array h a l) [] = nth b h [].
Proof.
  intros h a l b Hn. unfold set_array. destruct (a <? length h)%nat eqn:E; [|reflexivity].
  apply Nat.ltb_lt in E.
  destruct (Nat.lt_ge_cases b a) as [H|H].
  - rewrite app_nth1 by (rewrite firstn_length; lia).
    rewrite <- (firstn_skipn a h) at 2. rewrite app_nth1 by (rewrite firstn_length; lia). reflexivity.
  - rewrite app_nth2 by (rewrite firstn_length; lia). rewrite firstn_length.
    replace (b - Nat.min a (length h))%nat with (S (b - S a)) by lia. cbn [nth].
    transitivity (nth b (firstn (S a) h ++ skipn (S a) h) []);
      [|rewrite firstn_skipn; reflexivity].
    rewrite (app_nth2 (firstn (S a) h)) by (rewrite firstn_length; lia).
    f_equal. rewrite firstn_length. lia.
Qed.

Lemma nth_firstn_skipn : forall (l : list Z) n p i, (i < n)%nat ->
  nth i (firstn n (skipn p l)) 0 = nth (p + i) l 0.
Proof.
  intros l n p. revert l n. induction p as [|p IH]; intros l n i Hi.
  - cbn [skipn plus]. revert l i Hi. induction n as [|n IHn]; intros l i Hi; [lia|].
    destruct l as [|x l]; [destruct i; reflexivity|]. destruct i as [|i]; [reflexivity|].
    cbn [firstn nth]. apply IHn. lia.
  - destruct l as [|x l]; [cbn [skipn]; rewrite firstn_nil; destruct i; reflexivity|].
    cbn [skipn plus nth]. apply IH. exact Hi.
Qed.

Lemma contents_reads : forall h s, valid h s -> reads h s (contents h s).
Proof.
  intros h s [H1 H2]. unfold reads, contents, array, byte_at. split.
  - rewrite firstn_length, skipn_length. lia.
  - intros i Hi. rewrite nth_firstn_skipn by exact Hi. reflexivity.
Qed.

Lemma reads_unique : forall h s t u, reads h s t -> reads h s u -> t = u.
Proof.
  intros h s t u [L1 H1] [L2 H2]. apply (nth_ext t u 0 0); [lia|].
  intros n Hn. rewrite <- H1, <- H2 by lia. reflexivity.
Qed.

Lemma reads_contents : forall h s t, valid h s -> reads h s t -> contents h s = t.
Proof. intros h s t V R. exact (reads_unique h s _ _ (contents_reads h s V) R). Qed.

Lemma valid_arr : forall h s, valid h s -> (0 < cap s)%nat -> (arr s < length h)%nat.
Proof.
  intros h s [_ H] Hc. destruct (Nat.lt_ge_cases (arr s) (length h)) as [L|L]; [exact L|].
  rewrite nth_overflow in H by exact L. cbn in H. lia.
Qed.

(** Byte by byte. *)
Lemma ap_byte : forall h s t h' s', appended h s t h' s' -> forall a i, (a < length h)%nat ->
  byte_at h' a i = byte_at h a i \/
  exists j, (j < length t)%nat /\ a = arr s /\ i = (off s + len s + j)%nat /\ (len s + j < cap s)%nat
            /\ byte_at h' a i = nth j t 0.
Proof.
  intros h s t h' s' A a i Ha. destruct (ap_prefix _ _ _ _ _ A) as (k & K1 & K2 & _ & K). destruct (K a i Ha) as [P Q].
  destruct (Nat.eq_dec a (arr s)) as [Ea|Na]; [|left; apply Q; auto].
  destruct (Nat.lt_ge_cases i (off s + len s)) as [L|L]; [left; apply Q; auto|].
  destruct (Nat.lt_ge_cases i (off s + len s + k)) as [L2|L2]; [|left; apply Q; auto].
  right. exists (i - (off s + len s))%nat. split; [lia|]. split; [exact Ea|]. split; [lia|]. split; [lia|]. apply P; auto.
Qed.

Lemma appended_refl : forall h s, valid h s -> appended h s [] h s.
Proof.
  intros h s V. pose proof V as [V1 V2]. constructor; cbn [length].
  - lia.
  - reflexivity.
  - exists 0%nat. split; [lia|]. split; [lia|]. split; [reflexivity|]. intros a i _. split; [lia|reflexivity].
  - exact V.
  - intros u H. rewrite app_nil_r. exact H.
  - intros _. split; [|reflexivity]. rewrite Nat.add_0_r. destruct s; reflexivity.
  - lia.
Qed.

Lemma appended_trans : forall h s t1 h1 s1 t2 h2 s2,
  appended h s t1 h1 s1 -> appended h1 s1 t2 h2 s2 -> appended h s (t1 ++ t2) h2 s2.
Proof.
  intros h s t1 h1 s1 t2 h2 s2 A1 A2. constructor.
  - pose proof (ap_more _ _ _ _ _ A1). pose proof (ap_more _ _ _ _ _ A2). lia.
  - intros a Ha. pose proof (ap_more _ _ _ _ _ A1).
    rewrite (ap_size _ _ _ _ _ A2) by lia. apply (ap_size _ _ _ _ _ A1). exact Ha.
  - pose proof (ap_more _ _ _ _ _ A1) as Hm. rewrite app_length.
    destruct (ap_prefix _ _ _ _ _ A1) as (k & K1 & K2 & K3 & K). destruct (ap_prefix _ _ _ _ _ A2) as (n & N1 & N2 & N3 & N).
    destruct (Nat.lt_ge_cases (cap s) (len s + length t1)) as [L|L].
    + pose proof (ap_new _ _ _ _ _ A1 L) as Hn. exists k. split; [lia|]. split; [lia|]. split; [lia|].
      intros a i Ha. destruct (N a i ltac:(lia)) as [_ Q2]. rewrite Q2 by (left; lia). destruct (K a i Ha) as [P1 P2].
      split; [|exact P2]. intros Ea Hi. rewrite app_nth1 by lia. apply P1; assumption.
    + specialize (K3 L). subst k. destruct (ap_room _ _ _ _ _ A1 L) as [Es _]. subst s1. cbn [arr off len cap] in *.
      exists (length t1 + n)%nat. split; [lia|]. split; [lia|]. split; [lia|].
      intros a i Ha. destruct (N a i ltac:(lia)) as [Q1 Q2]. destruct (K a i Ha) as [P1 P2]. split.
      * intros Ea Hi. destruct (Nat.lt_ge_cases i (off s + len s + length t1)) as [L2|L2].
        -- rewrite Q2 by lia. rewrite app_nth1 by lia. apply P1; [exact Ea|lia].
        -- rewrite Q1 by lia. rewrite app_nth2 by lia. f_equal. lia.
      * intros H. rewrite Q2 by lia. apply P2. lia.
  - exact (ap_valid _ _ _ _ _ A2).
  - intros u R. rewrite app_assoc. apply (ap_reads _ _ _ _ _ A2), (ap_reads _ _ _ _ _ A1), R.
  - rewrite app_length. intros L.
    destruct (ap_room _ _ _ _ _ A1) as [E1 L1]; [lia|]. subst s1.
    destruct (ap_room _ _ _ _ _ A2) as [E2 L2]; [cbn [len cap]; lia|]. cbn [arr off len cap] in E2.
    split; [rewrite E2; f_equal; lia|lia].
  - rewrite app_length. intros L. pose proof (ap_more _ _ _ _ _ A2) as Hm.
    pose proof (ap_more _ _ _ _ _ A1) as Hm1.
    destruct (Nat.lt_ge_cases (cap s1) (len s1 + length t2)) as [L2|L2].
    + pose proof (ap_new _ _ _ _ _ A2 L2). lia.
    + destruct (ap_room _ _ _ _ _ A2 L2) as [E2 _].
      destruct (Nat.lt_ge_cases (cap s) (len s + length t1)) as [L1|L1].
      * pose proof (ap_new _ _ _ _ _ A1 L1). rewrite E2. cbn [arr]. lia.
      * destruct (ap_room _ _ _ _ _ A1 L1) as [E1 _]. subst s1. cbn [len cap] in L2. lia.
Qed.

Section append.
Variable grow : nat -> nat -> nat.

Lemma append_appended : forall h s xs, valid h s ->
  exists s' h', append grow s xs h = Ret (s', h') /\ appended h s xs h' s'.
Proof.
  intros h s xs V. pose proof V as [V1 V2]. unfold append.
  destruct (len s + length xs <=? cap s)%nat eqn:E.
  - apply Nat.leb_le in E. eexists; eexists; split; [reflexivity|].
    unfold array. set (l := nth (arr s) h []) in *.
    assert (Hl : (off s + len s + length xs <= length l)%nat) by lia.
    assert (Harr : (arr s < length h)%nat \/ (length xs = 0)%nat).
    { destruct (Nat.eq_dec (cap s) 0); [right; lia|left; apply (valid_arr h s V); lia]. }
    assert (Hsz : forall a, length (nth a (set_array h (arr s) (overwrite l (off s + len s) xs)) [])
                            = length (nth a h [])).
    { intros a. destruct (Nat.eq_dec (arr s) a) as [Ea|Ea].
      - subst a. destruct (Nat.lt_ge_cases (arr s) (length h)) as [L|L].
        + rewrite nth_set_eq by exact L. rewrite length_overwrite by exact Hl. reflexivity.
        + unfold set_array. apply Nat.ltb_ge in L. rewrite L. reflexivity.
      - rewrite nth_set_neq by exact Ea. reflexivity. }
    constructor.
    + rewrite length_set. lia.
    + intros a _. apply Hsz.
    + exists (length xs). split; [lia|]. split; [lia|]. split; [reflexivity|].
      intros a i Ha. unfold byte_at. destruct (Nat.eq_dec (arr s) a) as [Ea|Ea].
      * subst a. rewrite nth_set_eq by exact Ha. split.
        -- intros _ Hi. replace i with (off s + len s + (i - (off s + len s)))%nat at 1 by lia.
           apply nth_overwrite_in; lia.
        -- intros [H|H]; [lia|]. apply (nth_overwrite_out l); lia.
      * rewrite nth_set_neq by exact Ea. split; [intros Q; exfalso; apply Ea; symmetry; exact Q|reflexivity].
    + split; cbn [len cap off arr]; [lia|]. rewrite Hsz. exact V2.
    + intros u [R1 R2]. split; cbn [len cap off arr]; [rewrite app_length; lia|].
      intros i Hi. unfold byte_at in *.
      destruct (Nat.lt_ge_cases (arr s) (length h)) as [L|L].
      * rewrite nth_set_eq by exact L.
        destruct (Nat.lt_ge_cases i (len s)) as [L2|L2].
        -- rewrite nth_overwrite_out by lia. rewrite app_nth1 by lia. apply R2. exact L2.
        -- rewrite app_nth2 by lia.
           replace (off s + i)%nat with (off s + len s + (i - length u))%nat by lia.
           apply nth_overwrite_in; lia.
      * destruct Harr as [Harr|Harr]; [lia|].
        unfold set_array. apply Nat.ltb_ge in L. rewrite L.
        rewrite app_nth1 by lia. apply R2. lia.
    + intros _. split; [reflexivity|apply length_set].
    + lia.
  - apply Nat.leb_gt in E. eexists; eexists; split; [reflexivity|].
    set (n := (len s + length xs)%nat) in *. set (c := Nat.max n (grow (cap s) n)).
    pose proof (contents_reads h s V) as [C1 C2].
    constructor.
    + rewrite app_length. lia.
    + intros a Ha. rewrite app_nth1 by exact Ha. reflexivity.
    + exists 0%nat. split; [lia|]. split; [lia|]. split; [lia|]. intros a i Ha. split; [lia|].
      intros _. unfold byte_at. rewrite app_nth1 by exact Ha. reflexivity.
    + split; cbn [len cap off arr]; [lia|]. rewrite app_nth2, Nat.sub_diag by lia. cbn [nth].
      rewrite !app_length, repeat_length. lia.
    + intros u [R1 R2]. split; cbn [len cap off arr]; [rewrite app_length; lia|].
      intros i Hi. unfold byte_at. rewrite app_nth2, Nat.sub_diag by lia. cbn [nth plus].
      rewrite (reads_unique h s u (contents h s) (conj R1 R2) (contents_reads h s V)).
      rewrite app_assoc. rewrite app_nth1 by (rewrite app_length; lia). reflexivity.
    + lia.
    + intros _. cbn [arr]. rewrite app_length. cbn [length]. lia.
Qed.

(** [m], run on heap [h], appends to [s0] of heap [h0] the text [v]; or both panic. *)
Definition Sim (h0 : heap) (s0 : gslice) (m : outcome (gslice * heap)) (v : outcome bytes) : Prop :=
  match v with
  | Ret t => exists s' h', m = Ret (s', h') /\ appended h0 s0 t h' s'
  | Panic => m = Panic
  end.

Lemma sim_ret : forall h0 s0 s h t, appended h0 s0 t h s -> Sim h0 s0 (ret s h) (Ret t).
Proof. intros. cbn. eexists; eexists; split; [reflexivity|assumption]. Qed.

Lemma sim_app : forall h0 s0 s h t xs, appended h0 s0 t h s ->
  Sim h0 s0 (append grow s xs h) (Ret (t ++ xs)).
Proof.
  intros h0 s0 s h t xs A. cbn.
  destruct (append_appended h s xs (ap_valid _ _ _ _ _ A)) as (s' & h' & E & A').
  exists s', h'. split; [exact E|]. exact (appended_trans _ _ _ _ _ _ _ _ A A').
Qed.

(** The simulation of a statement that appends, followed by the rest. *)
Lemma sim_bind : forall h0 s0 h (m : M gslice) k (v : outcome bytes) kv,
  Sim h0 s0 (m h) v ->
  (forall s' h' t, appended h0 s0 t h' s' -> Sim h0 s0 (k s' h') (kv t)) ->
  Sim h0 s0 (mbind m k h) (bind v kv).
Proof.
  intros h0 s0 h m k v kv H K. unfold mbind. destruct v as [t|]; cbn in *.
  - destruct H as (s' & h' & E & A). rewrite E. apply K. exact A.
  - rewrite H. reflexivity.
Qed.

(** The same when the text model binds no variable. *)
Lemma sim_let : forall h0 s0 h (m : M gslice) k t v,
  Sim h0 s0 (m h) (Ret t) ->
  (forall s' h', appended h0 s0 t h' s' -> Sim h0 s0 (k s' h') v) ->
  Sim h0 s0 (mbind m k h) v.
Proof.
  intros h0 s0 h m k t v H K. unfold mbind. cbn in H. destruct H as (s' & h' & E & A).
  rewrite E. apply K. exact A.
Qed.

Lemma sim_lift : forall h0 s0 h {A} (x : outcome A) k kv,
  (forall a, Sim h0 s0 (k a h) (kv a)) ->
  Sim h0 s0 (mbind (lift x) k h) (bind x kv).
Proof.
  intros h0 s0 h A x k kv K. unfold mbind, lift. destruct x as [a|]; cbn; [apply K|reflexivity].
Qed.

Lemma sim_neg : forall h0 s0 h s t (b : bool) xs, appended h0 s0 t h s ->
  Sim h0 s0 ((if b then append grow s xs else ret s) h) (Ret (if b then t ++ xs else t)).
Proof. intros. destruct b; [apply sim_app|apply sim_ret]; assumption. Qed.

Lemma sim_zeros : forall n h0 s0 h s t, appended h0 s0 t h s ->
  Sim h0 s0 (zeros grow n s h) (Ret (t ++ repeat 48 n)).
Proof.
  induction n as [|n IH]; intros h0 s0 h s t A; cbn [zeros repeat].
  - rewrite app_nil_r. apply sim_ret. exact A.
  - apply (sim_let _ _ _ _ _ (t ++ [48])); [apply sim_app; exact A|].
    intros s' h' A'. change (48 :: repeat 48 n) with ([48] ++ repeat 48 n). rewrite app_assoc.
    apply IH. exact A'.
Qed.

Lemma sim_fmtE : forall w h0 s0 h s t neg b prec fmt, appended h0 s0 t h s ->
  Sim h0 s0 (fmtE grow w s neg b prec fmt h) (FtoaArr.fmtE w t neg b prec fmt).
Proof.
  intros w h0 s0 h s t neg b prec fmt A. unfold fmtE, FtoaArr.fmtE.
  eapply sim_let; [apply sim_neg; exact A|]. clear A. intros s1 h1 A.
  apply sim_lift. intros ch.
  eapply sim_let; [apply sim_app; exact A|]. clear A. intros s2 h2 A.
  apply sim_bind.
  - destruct (0 <? prec); [|apply sim_ret; exact A].
    eapply sim_let; [apply sim_app; exact A|]. clear A. intros s3 h3 A.
    set (m := Z.min (bnd b) (sint w (prec + 1))).
    assert (K : forall s4 h4 t4 i, appended h0 s0 t4 h4 s4 ->
      Sim h0 s0 ((if sint w (prec + 1) =? prec + 1 then zeros grow (Z.to_nat (prec + 1 - i)) s4 else lift Panic) h4)
        (if sint w (prec + 1) =? prec + 1 then Ret (t4 ++ repeat 48 (Z.to_nat (prec + 1 - i))) else Panic)).
    { intros s4 h4 t4 i A4. destruct (sint w (prec + 1) =? prec + 1); [apply sim_zeros; exact A4|reflexivity]. }
    destruct (1 <? m).
    + unfold mbind at 1. unfold mbind at 1. unfold lift at 1.
      destruct (slice (bd b) 1 m) as [x|]; [|reflexivity]. cbn [bind].
      unfold mbind at 1.
      destruct (sim_app h0 s0 s3 h3 _ x A) as (s4 & h4 & E & A4). rewrite E. cbn [ret].
      apply K. exact A4.
    + cbn [bind]. unfold mbind at 1. cbn [ret]. apply K. exact A.
  - clear A. intros s3 h3 t3 A.
    eapply sim_let; [apply sim_app; exact A|]. clear A. intros s4 h4 A.
    destruct ((if bnd b =? 0 then 0 else bdp b - 1) <? 0).
    + eapply sim_let; [apply sim_app; exact A|]. clear A. intros s5 h5 A. apply sim_app. exact A.
    + eapply sim_let; [apply sim_app; exact A|]. clear A. intros s5 h5 A. apply sim_app. exact A.
Qed.

Lemma sim_frac : forall n i h0 s0 h s t b, appended h0 s0 t h s ->
  Sim h0 s0 (frac grow n i s b h) (r <- FtoaArr.frac_digits n i b ;; Ret (t ++ r)).
Proof.
  induction n as [|n IH]; intros i h0 s0 h s t b A; cbn [frac FtoaArr.frac_digits].
  - cbn [bind]. rewrite app_nil_r. apply sim_ret. exact A.
  - unfold mbind at 1. unfold lift at 1.
    destruct (if (0 <=? bdp b + i) && (bdp b + i <? bnd b) then get (bd b) (bdp b + i) else Ret 48)
      as [ch|]; cbn [bind]; [|reflexivity].
    eapply sim_let; [apply sim_app; exact A|]. clear A. intros s1 h1 A.
    specialize (IH (i + 1) h0 s0 h1 s1 (t ++ [ch]) b A).
    destruct (FtoaArr.frac_digits n (i + 1) b) as [r|]; cbn [bind] in *; [|exact IH].
    rewrite <- app_assoc in IH. exact IH.
Qed.

Lemma sim_fmtF : forall h0 s0 h s t neg b prec, appended h0 s0 t h s ->
  Sim h0 s0 (fmtF grow s neg b prec h) (FtoaArr.fmtF t neg b prec).
Proof.
  intros h0 s0 h s t neg b prec A. unfold fmtF, FtoaArr.fmtF.
  eapply sim_let; [apply sim_neg; exact A|]. clear A. intros s1 h1 A.
  apply sim_bind.
  - destruct (0 <? bdp b); [|apply sim_app; exact A].
    apply sim_lift. intros x. rewrite app_assoc.
    eapply sim_let; [apply sim_app; exact A|]. clear A. intros s2 h2 A. apply sim_zeros. exact A.
  - clear A. intros s2 h2 t2 A. destruct (0 <? prec); [|apply sim_ret; exact A].
    eapply sim_let; [apply sim_app; exact A|]. clear A. intros s3 h3 A.
    pose proof (sim_frac (Z.to_nat prec) 0 h0 s0 h3 s3 (t2 ++ [46]) b A) as F.
    destruct (FtoaArr.frac_digits (Z.to_nat prec) 0 b) as [r|]; cbn [bind] in *; [|exact F].
    rewrite <- app_assoc in F. exact F.
Qed.

Lemma sim_fmtB : forall w h0 s0 h s t neg mant exp flt, appended h0 s0 t h s ->
  Sim h0 s0 (fmtB grow w s neg mant exp flt h) (Ftoa.fmtB w t neg mant exp flt).
Proof.
  intros w h0 s0 h s t neg mant exp flt A. unfold fmtB, Ftoa.fmtB.
  eapply sim_let; [apply sim_neg; exact A|]. clear A. intros s1 h1 A.
  apply sim_lift. intros x.
  eapply sim_let; [apply sim_app; exact A|]. clear A. intros s2 h2 A.
  eapply sim_let; [apply sim_app; exact A|]. clear A. intros s3 h3 A.
  rewrite <- app_assoc in A.
  eapply sim_let; [apply sim_neg; exact A|]. clear A. intros s4 h4 A.
  apply sim_lift. intros y. apply sim_app. exact A.
Qed.

Lemma sim_formatDigits : forall w h0 s0 h s t shortest neg b prec fmt, appended h0 s0 t h s ->
  Sim h0 s0 (formatDigits grow w s shortest neg b prec fmt h) (FtoaArr.formatDigits w t shortest neg b prec fmt).
Proof.
  intros w h0 s0 h s t shortest neg b prec fmt A. unfold formatDigits, FtoaArr.formatDigits.
  destruct (is_e fmt); [apply sim_fmtE; exact A|].
  destruct (is_f fmt); [apply sim_fmtF; exact A|].
  destruct (is_g fmt); [|apply sim_app; exact A].
  cbv zeta.
  destruct ((bdp b - 1 <? -4)
            || ((if shortest then 6 else if (bnd b <? prec) && (bdp b <=? bnd b) then bnd b else prec) <=? bdp b - 1));
    [apply sim_fmtE; exact A|apply sim_fmtF; exact A].
Qed.

Lemma sim_bigFtoa : forall w h0 s0 h s t prec fmt neg mant exp flt, appended h0 s0 t h s ->
  Sim h0 s0 (bigFtoa grow w s prec fmt neg mant exp flt h) (FtoaArr.bigFtoa w t prec fmt neg mant exp flt).
Proof.
  intros w h0 s0 h s t prec fmt neg mant exp flt A. unfold bigFtoa, FtoaArr.bigFtoa.
  apply sim_lift. intros d. apply sim_lift. intros d2. cbv zeta.
  destruct (prec <? 0).
  - unfold mbind at 1. unfold mbind at 1. unfold lift at 1.
    destruct (FtoaArr.roundShortest w d2 mant exp flt) as [d3|]; [|reflexivity]. cbn [bind ret].
    apply sim_formatDigits. exact A.
  - destruct (is_e fmt); [|destruct (is_f fmt); [|destruct (is_g fmt)]].
    + unfold mbind at 1. unfold mbind at 1. unfold mbind at 1. unfold lift at 1.
      destruct (Round d2 (sint w (prec + 1))); [|reflexivity]. cbn [bind ret].
      apply sim_formatDigits. exact A.
    + unfold mbind at 1. unfold mbind at 1. unfold mbind at 1. unfold lift at 1.
      destruct (Round d2 (sint w (adp d2 + prec))); [|reflexivity]. cbn [bind ret].
      apply sim_formatDigits. exact A.
    + unfold mbind at 1. unfold mbind at 1. unfold mbind at 1. unfold lift at 1.
      destruct (Round d2 (if prec =? 0 then 1 else prec)); [|reflexivity]. cbn [bind ret].
      apply sim_formatDigits. exact A.
    + unfold mbind at 1. unfold mbind at 1. cbn [bind ret].
      apply sim_formatDigits. exact A.
Qed.

Lemma sim_ftoa_digits : forall w opt h0 s0 h s t fmt prec neg mant exp flt, appended h0 s0 t h s ->
  Sim h0 s0 (ftoa_digits grow w opt s fmt prec neg mant exp flt h)
    (FtoaArr.ftoa_digits w opt t fmt prec neg mant exp flt).
Proof.
  intros w opt h0 s0 h s t fmt prec neg mant exp flt A. unfold ftoa_digits, FtoaArr.ftoa_digits.
  destruct (negb opt); [apply sim_bigFtoa; exact A|]. cbv zeta.
  destruct (prec <? 0).
  - destruct (ExtFloat.AssignComputeBounds mant exp neg flt) as [[f lo] up].
    apply sim_lift. intros [digs ok]. destruct ok; [apply sim_formatDigits; exact A|apply sim_bigFtoa; exact A].
  - destruct (negb (is_f fmt)); [|apply sim_bigFtoa; exact A].
    set (p := if is_g fmt && (prec =? 0) then 1 else prec).
    set (dg := if is_e fmt then sint w (p + 1) else p).
    destruct (dg <=? 15); [|apply sim_bigFtoa; exact A].
    apply sim_lift. intros [digs ok]. destruct ok; [apply sim_formatDigits; exact A|apply sim_bigFtoa; exact A].
Qed.

Lemma sim_genericFtoa : forall w opt h0 s0 h s t f fmt prec bitSize, appended h0 s0 t h s ->
  Sim h0 s0 (genericFtoa grow w opt s f fmt prec bitSize h)
    (FtoaArr.genericFtoa w opt t f fmt prec bitSize).
Proof.
  intros w opt h0 s0 h s t f fmt prec bitSize A. unfold genericFtoa, FtoaArr.genericFtoa.
  apply sim_lift. intros [bits flt].
  set (exp := Z.land (sint w (Z.shiftr bits (mantbits flt))) (2 ^ expbits flt - 1)).
  cbv zeta. destruct (exp =? 2 ^ expbits flt - 1); [apply sim_app; exact A|].
  destruct (if exp =? 0 then (exp + 1, _) else _) as [e m].
  destruct (fmt =? ch_b); [apply sim_fmtB; exact A|apply sim_ftoa_digits; exact A].
Qed.

Lemma c98_float : forall w opt h dst f fmt prec bitSize, valid h dst ->
  Sim h dst (AppendFloat grow w opt dst f fmt prec bitSize h) (FtoaArr.FormatFloat w opt f fmt prec bitSize).
Proof.
  intros w opt h dst f fmt prec bitSize V. apply sim_genericFtoa. apply appended_refl. exact V.
Qed.

Lemma c98_int : forall host h dst i base, valid h dst ->
  Sim h dst (AppendInt grow host dst i base h) (Itoa.FormatInt host i base).
Proof.
  intros host h dst i base V. unfold AppendInt, Itoa.FormatInt.
  destruct ((0 <=? i) && (i <? Itoa.nSmalls) && (base =? 10)); unfold mbind, lift.
  - destruct (Itoa.small i) as [x|]; [|reflexivity].
    exact (sim_app h dst dst h [] x (appended_refl h dst V)).
  - destruct (Itoa.formatBits host (u64 i) base (i <? 0)) as [x|]; [|reflexivity].
    exact (sim_app h dst dst h [] x (appended_refl h dst V)).
Qed.

Lemma c98_uint : forall host h dst i base, valid h dst ->
  Sim h dst (AppendUint grow host dst i base h) (Itoa.FormatUint host i base).
Proof.
  intros host h dst i base V. unfold AppendUint, Itoa.FormatUint.
  destruct ((i <? Itoa.nSmalls) && (base =? 10)); unfold mbind, lift.
  - destruct (Itoa.small i) as [x|]; [|reflexivity].
    exact (sim_app h dst dst h [] x (appended_refl h dst V)).
  - destruct (Itoa.formatBits host i base false) as [x|]; [|reflexivity].
    exact (sim_app h dst dst h [] x (appended_refl h dst V)).
Qed.

End append.
