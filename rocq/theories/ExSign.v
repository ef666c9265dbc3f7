(** Concrete cases of C09 (hosts) and C72. *)
From Coq Require Import ZArith Reals String List Bool Lia Lra.
From Flocq Require Import Core.
From Verif Require Import GoBase Spec SpecText SpecSign BitFacts RoundFacts IeeeFacts ClaimsSign.
From Verif Require BigFloat Binary16 Float80x86.
From Verif Require Import Ftoa.
Open Scope Z_scope.

Lemma c09_80h : forall w x, wf x -> let '(f, a) := Float80x86.NewFromBig_host w x in
  Float80x86.NewFromBig_host w (opp x) =
    (Float80x86.mkFloat (flip 16 (Float80x86.se f)) (Float80x86.m f), a).
Proof.
  intros w x W. pose proof (sign80_int (sint w) x W) as H. unfold Float80x86.NewFromBig_host in *.
  destruct (Float80x86.NewFromBig_int (sint w) x) as [f a]. exact H.
Qed.

Lemma ex_host : let x := BigFloat.mkBF 2 BigFloat.ToZero BigFloat.Exact true (BigFloat.Finite 3 (2 ^ 31 - 3)) in
  wf x /\ bval x <> bval (opp x) /\
  Binary16.NewFromBig_host 32 x <> Binary16.NewFromBig_host 64 x.
Proof.
  intros x. split; [|split].
  - split; [cbn; lia|]. cbn [BigFloat.frm x]. split; [lia|]. split; [exists 3, 0; cbn; lia|]. change (BigFloat.gexp 3 (2 ^ 31 - 3)) with (2 ^ 31 - 1). unfold BigFloat.MinExp, BigFloat.MaxExp. lia.
  - intros E. apply (f_equal (fun v => match v with VNum s _ => s | _ => true end)) in E.
    unfold bval, x, opp in E. cbn [BigFloat.frm BigFloat.neg negb] in E. discriminate.
  - vm_compute. discriminate.
Qed.

Lemma ex_minus : converted 0x3FF8000000000000 16 (VNum false (IZR 1536 * p2 (-10))) /\
  FormatFloat 32 true 0x3FF8000000000000 103 (-1) 16 = Ret (B "1.5"%string) /\
  FormatFloat 32 true (0x3FF8000000000000 + 2 ^ 63) 103 (-1) 16 = Ret (B "-1.5"%string) /\
  FormatFloat 64 true 0x7FE0000000000000 103 (-1) 32 = Ret (B "+Inf"%string) /\
  FormatFloat 64 true (0x7FE0000000000000 + 2 ^ 63) 103 (-1) 32 = Ret (B "-Inf"%string).
Proof.
  split.
  - right. right. split; [reflexivity|]. exists 0x3E00, BigFloat.Exact. split; [vm_compute; reflexivity|].
    change 0x3E00 with (enc 10 5 false 15 512). rewrite ieee_enc by lia. cbn - [bpow IZR]. reflexivity.
  - vm_compute. repeat split.
Qed.
