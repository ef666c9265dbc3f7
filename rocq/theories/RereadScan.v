(** What SetString of GenText.v reads from the texts of SpecFmt.v. *)
From Coq Require Import ZArith Reals Lia Lra Bool List.
From Verif Require Import GoBase BigFloat GoFmt GenText.
From Verif Require Import Spec SpecText SpecDec SpecFtoa BitFacts ItoaFacts DecFacts ClaimsLen SpecFmt.
Import ListNotations.
Open Scope Z_scope.

Local Notation len l := (Z.of_nat (length l)).

(** The end of SetString (GenText.v), for the number [v] * 10^[k]. *)
Definition set_dec (p : Z) (ng : bool) (v k : Z) : bigfloat :=
  let z := mkBF p ToNearestEven Exact ng (if v =? 0 then Zero else Finite v k) in
  if v =? 0 then z else if k =? 0 then BigFloat.round z else if k <? 0 then Quo z z (pow5 (p + 64) (- k)) else Mul z z (pow5 (p + 64) k).

Lemma digit_cases c : 48 <= c <= 57 -> c = 48 \/ c = 49 \/ c = 50 \/ c = 51 \/ c = 52 \/ c = 53 \/ c = 54 \/ c = 55 \/ c = 56 \/ c = 57.
Proof. lia. Qed.

Lemma scan_one c t v cnt frac : 48 <= c <= 57 -> scan_digits (c :: t) v cnt frac = scan_digits t (10 * v + (c - 48)) (cnt + 1) (if frac <? 0 then -1 else frac + 1).
Proof. intros H. destruct (digit_cases c H) as [->|[->|[->|[->|[->|[->|[->|[->|[->| ->]]]]]]]]]; reflexivity. Qed.

Lemma scan_many l : forall t v cnt frac, all_digits 10 l -> frac = -1 \/ 0 <= frac ->
  scan_digits (l ++ t) v cnt frac = scan_digits t (v * 10 ^ len l + read 10 l) (cnt + len l) (if frac <? 0 then -1 else frac + len l).
Proof.
  induction l as [|c l IH]; intros t v cnt frac A F.
  - cbn [length app]. change (Z.of_nat 0) with 0. change (read 10 []) with 0. rewrite Z.pow_0_r, Z.mul_1_r, !Z.add_0_r. f_equal. destruct (Z.ltb_spec frac 0); lia.
  - inversion A as [|? ? Hc Ht]; subst. destruct (digit10 c Hc) as [D1 D2]. cbn [app]. rewrite scan_one by exact D2. rewrite IH; [|exact Ht|destruct (Z.ltb_spec frac 0); lia].
    assert (Er : read 10 (c :: l) = (c - 48) * 10 ^ len l + read 10 l) by (change (c :: l) with ([c] ++ l); rewrite read_app; change (read 10 [c]) with (digit_val c); rewrite D1; reflexivity). rewrite Er. cbn [length].
    replace (Z.of_nat (S (length l))) with (len l + 1) by lia. rewrite Z.pow_add_r by lia. f_equal; [ring|lia|].
    destruct (Z.ltb_spec frac 0); [reflexivity|]. rewrite (proj2 (Z.ltb_ge _ _)) by lia. lia.
Qed.

Lemma scan_stop t v cnt frac : (t = [] \/ exists x, t = 101 :: x) -> scan_digits t v cnt frac = (v, cnt, frac, t).
Proof. intros [->|(x & ->)]; reflexivity. Qed.

Lemma scan_number ip fp t : all_digits 10 ip -> all_digits 10 fp -> (t = [] \/ exists x, t = 101 :: x) ->
  scan_digits (ip ++ point fp ++ t) 0 0 (-1) = (read 10 (ip ++ fp), len (ip ++ fp), if Nat.eqb (length fp) 0 then -1 else len fp, t).
Proof.
  intros A A' T. rewrite scan_many by (try exact A; lia). destruct fp as [|f0 f].
  - cbn [point app]. rewrite scan_stop by exact T. rewrite app_nil_r. cbn. reflexivity.
  - set (fp := f0 :: f) in *. replace (point fp) with (46 :: fp) by reflexivity. cbn [app].
    replace (scan_digits (46 :: fp ++ t) (0 * 10 ^ len ip + read 10 ip) (0 + len ip) (if -1 <? 0 then -1 else -1 + len ip))
      with (scan_digits (fp ++ t) (0 * 10 ^ len ip + read 10 ip) (0 + len ip) 0) by reflexivity.
    rewrite scan_many by (try exact A'; lia). rewrite scan_stop by exact T. rewrite read_app, app_length. replace (Nat.eqb (length fp) 0) with false by reflexivity.
    cbn [Z.ltb Z.compare]. apply f_equal2; [apply f_equal2; [apply f_equal2; [ring|lia]|lia]|reflexivity].
Qed.

Lemma scan_sign_text ng c t : 48 <= c <= 57 -> scan_sign (sign_text ng ++ c :: t) = (ng, c :: t).
Proof. intros H. destruct ng; [reflexivity|]. cbn [sign_text app]. destruct (digit_cases c H) as [->|[->|[->|[->|[->|[->|[->|[->|[->| ->]]]]]]]]]; reflexivity. Qed.

Lemma scan_dec_read l : forall v, all_digits 10 l -> scan_dec l v = Some (v * 10 ^ len l + read 10 l).
Proof.
  induction l as [|c l IH]; intros v A.
  - cbn [scan_dec length]. change (Z.of_nat 0) with 0. change (read 10 []) with 0. f_equal. rewrite Z.pow_0_r. lia.
  - inversion A as [|? ? Hc Ht]; subst. destruct (digit10 c Hc) as [D1 D2]. cbn [scan_dec]. rewrite (proj2 (Z.leb_le 48 c)), (proj2 (Z.leb_le c 57)) by lia. cbn [andb]. rewrite IH by exact Ht.
    assert (Er : read 10 (c :: l) = (c - 48) * 10 ^ len l + read 10 l) by (change (c :: l) with ([c] ++ l); rewrite read_app; change (read 10 [c]) with (digit_val c); rewrite D1; reflexivity). rewrite Er. cbn [length].
    replace (Z.of_nat (S (length l))) with (len l + 1) by lia. rewrite Z.pow_add_r by lia. f_equal. ring.
Qed.

Lemma scan_exp X xs : exp_digits X xs -> scan_exp10 (101 :: xs) = Some X.
Proof.
  intros (ed & -> & A & R & L). assert (N : ed <> []).
  { intros ->. destruct L as [L|[L _]]; [discriminate|]. change (read 10 []) with 0 in R. lia. }
  cbn [scan_exp10]. replace (scan_sign ((if X <? 0 then 45 else 43) :: ed)) with (X <? 0, ed) by (destruct (X <? 0); reflexivity).
  cbv beta iota. destruct ed as [|e0 e]; [contradiction|]. rewrite scan_dec_read by exact A. rewrite R. f_equal. destruct (Z.ltb_spec X 0); lia.
Qed.

Lemma SetString_scan p ng ip fp t ex : all_digits 10 (ip ++ fp) -> ip <> [] -> (t = [] \/ exists x, t = 101 :: x) -> scan_exp10 t = Some ex ->
  SetString p (sign_text ng ++ ip ++ point fp ++ t) = Some (set_dec p ng (read 10 (ip ++ fp)) (ex - len fp)).
Proof.
  intros A N T E. unfold all_digits in A. rewrite Forall_app in A. destruct A as [A A'].
  destruct ip as [|i0 i] eqn:Ei; [contradiction|]. rewrite <- Ei in *. assert (D : 48 <= i0 <= 57) by (rewrite Ei in A; inversion A as [|? ? Hc _]; subst; apply digit10; exact Hc).
  unfold SetString. replace (scan_sign (sign_text ng ++ ip ++ point fp ++ t)) with (ng, ip ++ point fp ++ t) by (rewrite Ei; cbn [app]; symmetry; apply scan_sign_text; exact D).
  rewrite scan_number by assumption. cbv beta iota. rewrite (proj2 (Z.eqb_neq _ _)) by (rewrite Ei; cbn [app length]; lia). rewrite E.
  replace (if (if Nat.eqb (length fp) 0 then -1 else len fp) <? 0 then 0 else if Nat.eqb (length fp) 0 then -1 else len fp) with (len fp).
  - unfold set_dec. destruct (read 10 (ip ++ fp) =? 0); [reflexivity|]. destruct (ex - len fp =? 0); [reflexivity|]. destruct (ex - len fp <? 0); reflexivity.
  - destruct (Nat.eqb_spec (length fp) 0) as [L|L]; [rewrite L; reflexivity|]. rewrite (proj2 (Z.ltb_ge _ _)) by lia. reflexivity.
Qed.

(** The texts denote v * 10^k and this is what SetString works with. *)
Lemma SetString_f p ng fp x s : prints_f ng fp x s -> exists v, 0 <= v /\ x = (IZR v * p10 (- len fp))%R /\ SetString p s = Some (set_dec p ng v (- len fp)).
Proof.
  intros (ip & -> & (N1 & N2 & _) & A & E). exists (read 10 (ip ++ fp)). assert (A2 : all_digits 10 (ip ++ fp)) by (apply Forall_app; split; assumption).
  pose proof (read_range 10 (ip ++ fp) ltac:(lia) A2). split; [lia|]. split; [exact E|].
  pose proof (SetString_scan p ng ip fp [] 0 A2 N1 (or_introl eq_refl) eq_refl) as K. rewrite app_nil_r in K. rewrite Z.sub_0_l in K. exact K.
Qed.

Lemma SetString_e p ng fp x s : prints_e 101 ng fp x s -> exists a X, all_digits 10 (a :: fp) /\ x = (IZR (read 10 (a :: fp)) * p10 (X - len fp))%R /\ (a = 48 -> x = 0%R /\ X = 0) /\
  SetString p s = Some (set_dec p ng (read 10 (a :: fp)) (X - len fp)).
Proof.
  intros (a & X & xs & -> & Hx & A & E & Hz). exists a, X. repeat (split; [assumption|]).
  exact (SetString_scan p ng [a] fp (101 :: xs) X A ltac:(discriminate) (or_intror (ex_intro _ xs eq_refl)) (scan_exp X xs Hx)).
Qed.
