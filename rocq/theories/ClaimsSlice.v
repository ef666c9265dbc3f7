(** Lemmas for C98 to C100: slices and their arrays. *)
From Coq Require Import ZArith Reals String List Bool Arith Lia Lra.
From Verif Require Import GoBase BigFloat Spec SpecText SpecDec SpecFtoa.
From Verif Require Import Slices SpecSlice SliceFacts SpecFmt.
From Verif Require Ftoa FtoaArr Itoa ClaimsLen ClaimsArr ClaimsFtoa2.
Import ListNotations.
Open Scope Z_scope.

Lemma c98_f : forall grow w opt h dst f fmt prec bitSize t, valid h dst ->
  FtoaArr.FormatFloat w opt f fmt prec bitSize = Ret t ->
  exists s' h', AppendFloat grow w opt dst f fmt prec bitSize h = Ret (s', h') /\ appended h dst t h' s'.
Proof.
  intros grow w opt h dst f fmt prec bitSize t V E.
  pose proof (c98_float grow w opt h dst f fmt prec bitSize V) as S. rewrite E in S. exact S.
Qed.

Lemma c98_i : forall grow host h dst i base t, valid h dst -> Itoa.FormatInt host i base = Ret t ->
  exists s' h', AppendInt grow host dst i base h = Ret (s', h') /\ appended h dst t h' s'.
Proof.
  intros grow host h dst i base t V E. pose proof (c98_int grow host h dst i base V) as S. rewrite E in S. exact S.
Qed.

Lemma c98_u : forall grow host h dst i base t, valid h dst -> Itoa.FormatUint host i base = Ret t ->
  exists s' h', AppendUint grow host dst i base h = Ret (s', h') /\ appended h dst t h' s'.
Proof.
  intros grow host h dst i base t V E. pose proof (c98_uint grow host h dst i base V) as S. rewrite E in S. exact S.
Qed.

Lemma c98_panics : forall grow h dst, valid h dst ->
  (forall w opt f fmt prec bitSize, FtoaArr.FormatFloat w opt f fmt prec bitSize = Panic ->
     AppendFloat grow w opt dst f fmt prec bitSize h = Panic) /\
  (forall host i base, Itoa.FormatInt host i base = Panic -> AppendInt grow host dst i base h = Panic) /\
  (forall host i base, Itoa.FormatUint host i base = Panic -> AppendUint grow host dst i base h = Panic).
Proof.
  intros grow h dst V. repeat split.
  - intros w opt f fmt prec bitSize E.
    pose proof (c98_float grow w opt h dst f fmt prec bitSize V) as S. rewrite E in S. exact S.
  - intros host i base E. pose proof (c98_int grow host h dst i base V) as S. rewrite E in S. exact S.
  - intros host i base E. pose proof (c98_uint grow host h dst i base V) as S. rewrite E in S. exact S.
Qed.

(** Another slice keeps its bytes unless it reaches behind [s]. *)
Lemma c98_other : forall h s t h' s' u x, appended h s t h' s' -> valid h u ->
  arr u <> arr s \/ (off u + len u <= off s + len s)%nat \/ (off s + cap s <= off u)%nat ->
  reads h u x -> valid h' u /\ reads h' u x.
Proof.
  intros h s t h' s' u x A V D [R1 R2].
  destruct (Nat.lt_ge_cases (arr u) (length h)) as [La|La].
  - split.
    + destruct V as [V1 V2]. split; [exact V1|]. rewrite (ap_size _ _ _ _ _ A) by exact La. exact V2.
    + split; [exact R1|]. intros i Hi. rewrite <- (R2 i Hi).
      destruct (ap_byte _ _ _ _ _ A (arr u) (off u + i) La) as [E|(j & J1 & J2 & J3 & J4 & _)]; [exact E|].
      exfalso. destruct D as [D|[D|D]]; [exact (D J2)|lia|lia].
  - pose proof V as [V1 V2]. rewrite nth_overflow in V2 by exact La. cbn in V2.
    split; [split; [exact V1|lia]|]. split; [exact R1|]. lia.
Qed.

Lemma c98_make : forall grow limit w opt f fmt prec bitSize t h,
  FtoaArr.FormatFloat w opt f fmt prec bitSize = Ret t -> Z.max (sint w (prec + 4)) 24 <= limit ->
  exists h', FormatFloat grow limit w opt f fmt prec bitSize h = Ret (t, h') /\
    (length h < length h')%nat /\
    (forall a, (a < length h)%nat -> nth a h' [] = nth a h []) /\
    (Z.of_nat (length t) <= Z.max (sint w (prec + 4)) 24 -> length h' = S (length h)) /\
    (Z.max (sint w (prec + 4)) 24 < Z.of_nat (length t) -> (S (length h) < length h')%nat).
Proof.
  intros grow limit w opt f fmt prec bitSize t h E L. unfold FormatFloat.
  destruct (Z.ltb_spec limit (Z.max (sint w (prec + 4)) 24)) as [L'|_]; [lia|].
  set (c := Z.max (sint w (prec + 4)) 24) in *.
  unfold mbind at 1. unfold make0 at 1.
  set (s0 := mkSl (length h) 0 0 (Z.to_nat c)). set (h0 := h ++ [repeat 0 (Z.to_nat c)]).
  assert (V : valid h0 s0).
  { split; cbn [len cap off arr s0]; [lia|]. unfold h0. rewrite app_nth2, Nat.sub_diag by lia. cbn [nth].
    rewrite repeat_length. lia. }
  destruct (c98_f grow w opt h0 s0 f fmt prec bitSize t V E) as (s1 & h1 & G & A).
  unfold AppendFloat in G. unfold mbind. rewrite G.
  assert (R : reads h0 s0 []) by (split; [reflexivity|cbn [len s0]; lia]).
  exists h1. repeat split.
  - f_equal. f_equal. apply reads_contents; [exact (ap_valid _ _ _ _ _ A)|].
    exact (ap_reads _ _ _ _ _ A [] R).
  - pose proof (ap_more _ _ _ _ _ A) as H. unfold h0 in H. rewrite app_length in H. cbn [length] in H. lia.
  - intros a Ha. assert (Ha0 : (a < length h0)%nat) by (unfold h0; rewrite app_length; lia).
    assert (En : nth a h0 [] = nth a h []) by (unfold h0; apply app_nth1; exact Ha).
    rewrite <- En. apply (nth_ext _ _ 0 0); [apply (ap_size _ _ _ _ _ A); exact Ha0|].
    intros i _. destruct (ap_byte _ _ _ _ _ A a i Ha0) as [B0|(j & _ & J & _)]; [exact B0|].
    cbn [arr s0] in J. lia.
  - intros Hl. destruct (ap_room _ _ _ _ _ A) as [_ Hh]; [cbn [len cap s0]; lia|].
    rewrite Hh. unfold h0. rewrite app_length. cbn [length]. lia.
  - intros Hl. pose proof (ap_new _ _ _ _ _ A) as K. cbn [len cap s0] in K. specialize (K ltac:(lia)).
    unfold h0 in K. rewrite app_length in K. cbn [length] in K. lia.
Qed.

(** The same panics, and one for a capacity above the limit. *)
Lemma c98_make_panics : forall grow limit w opt f fmt prec bitSize h,
  FtoaArr.FormatFloat w opt f fmt prec bitSize = Panic \/ limit < Z.max (sint w (prec + 4)) 24 ->
  FormatFloat grow limit w opt f fmt prec bitSize h = Panic.
Proof.
  intros grow limit w opt f fmt prec bitSize h H. unfold FormatFloat, mbind.
  destruct (Z.ltb_spec limit (Z.max (sint w (prec + 4)) 24)) as [L|L]; [reflexivity|].
  destruct H as [H|H]; [|lia]. unfold make0.
  set (c := Z.max (sint w (prec + 4)) 24) in *.
  set (s0 := mkSl (length h) 0 0 (Z.to_nat c)). set (h0 := h ++ [repeat 0 (Z.to_nat c)]).
  assert (V : valid h0 s0).
  { split; cbn [len cap off arr s0]; [lia|]. unfold h0. rewrite app_nth2, Nat.sub_diag by lia. cbn [nth].
    rewrite repeat_length. lia. }
  pose proof (proj1 (c98_panics grow h0 s0 V) w opt f fmt prec bitSize H) as P.
  unfold AppendFloat in P. rewrite P. reflexivity.
Qed.

(** One call of append: all arrays stay as they are if the text does not fit. *)
Lemma append_all : forall grow h s xs s' h', append grow s xs h = Ret (s', h') ->
  (cap s < len s + length xs)%nat -> forall a, (a < length h)%nat -> nth a h' [] = nth a h [].
Proof.
  intros grow h s xs s' h' E L a Ha. unfold append in E. apply Nat.leb_gt in L. rewrite L in E.
  injection E as _ <-. apply app_nth1. exact Ha.
Qed.

Lemma c99_i : forall grow host h dst i base t s' h', valid h dst -> Itoa.FormatInt host i base = Ret t ->
  AppendInt grow host dst i base h = Ret (s', h') -> (cap dst < len dst + length t)%nat ->
  forall a, (a < length h)%nat -> nth a h' [] = nth a h [].
Proof.
  intros grow host h dst i base t s' h' V E G L. unfold AppendInt, Itoa.FormatInt in *.
  destruct ((0 <=? i) && (i <? Itoa.nSmalls) && (base =? 10)); unfold mbind, lift in G; rewrite E in G;
    exact (append_all grow h dst t s' h' G L).
Qed.

Lemma c99_u : forall grow host h dst i base t s' h', valid h dst -> Itoa.FormatUint host i base = Ret t ->
  AppendUint grow host dst i base h = Ret (s', h') -> (cap dst < len dst + length t)%nat ->
  forall a, (a < length h)%nat -> nth a h' [] = nth a h [].
Proof.
  intros grow host h dst i base t s' h' V E G L. unfold AppendUint, Itoa.FormatUint in *.
  destruct ((i <? Itoa.nSmalls) && (base =? 10)); unfold mbind, lift in G; rewrite E in G;
    exact (append_all grow h dst t s' h' G L).
Qed.

(** AppendFloat: the first bytes of the text may be in the old array. *)
Lemma c99_f : forall grow w opt h dst f fmt prec bitSize t s' h', valid h dst ->
  FtoaArr.FormatFloat w opt f fmt prec bitSize = Ret t -> AppendFloat grow w opt dst f fmt prec bitSize h = Ret (s', h') ->
  exists k, (k <= length t)%nat /\ (len dst + k <= cap dst)%nat /\
    forall a i, (a < length h)%nat ->
      (a = arr dst -> (off dst + len dst <= i < off dst + len dst + k)%nat ->
         byte_at h' a i = nth (i - (off dst + len dst)) t 0) /\
      (a <> arr dst \/ (i < off dst + len dst)%nat \/ (off dst + len dst + k <= i)%nat -> byte_at h' a i = byte_at h a i).
Proof.
  intros grow w opt h dst f fmt prec bitSize t s' h' V E G.
  destruct (c98_f grow w opt h dst f fmt prec bitSize t V E) as (s1 & h1 & G1 & A). rewrite G in G1. injection G1 as <- <-.
  destruct (ap_prefix _ _ _ _ _ A) as (k & K1 & K2 & _ & K). exists k. auto.
Qed.

(** AppendFloat writes the first pieces of the text before it notices. *)
Lemma c99_refuted : forall grow, exists h dst s' h', valid h dst /\
  AppendFloat grow 64 true dst 0x3FF8000000000000 102 1 64 h = Ret (s', h') /\
  (cap dst < len dst + 3)%nat /\ nth 0 h [] = [88; 89; 90] /\ nth 0 h' [] = [88; 49; 46].
Proof.
  intros grow. exists [[88; 89; 90]], (mkSl 0 0 1 3). eexists; eexists.
  split; [split; cbn; lia|]. split; [|split; [cbn; lia|split; [reflexivity|]]].
  - vm_compute. reflexivity.
  - reflexivity.
Qed.
