From Coq Require Import ZArith List Ascii String Bool Lia.
From Verif Require Import F64 Str DecSpec SsqModel ItoaModel ItoaProof DtoaSpec DtoaModel DtoaFix.
Import ListNotations.
Open Scope Z_scope.
Open Scope opt_scope.

Ltac apps := repeat (progress (cbn [app]; rewrite <- ?app_assoc)); reflexivity.
Definition carry (r : ascii) : Z := if 53 <=? ord r then 1 else 0.
Lemma digit_not c : is_digit c -> c <> "."%char.
Proof. intros H ->. vm_compute in H. destruct H as [H _]. now apply H. Qed.
Lemma last_digit F : Forall is_digit F -> F <> [] -> exists a x, F = a ++ [x] /\ is_digit x.
Proof. intros H N. destruct (exists_last N) as (a & x & ->). exists a, x. split; [reflexivity|]. apply Forall_app in H as [_ H]. now inversion H. Qed.
Lemma canon_keep I A x m : canonical I -> I = A ++ x :: repeat "9"%char m -> x <> "9"%char -> A <> [] \/ m = O -> canonical (A ++ chr (ord x + 1) :: repeat "0"%char m).
Proof.
  intros (N & D & Z0) -> Hx HM. destruct (dec_incr A x m D Hx) as [HD _]. split; [destruct A; discriminate|]. split; [exact HD|].
  intros t E. destruct A as [|a A].
  - destruct HM as [HM|HM]; [now elim HM|]. subst m. cbn in *. injection E as _ E. now subst.
  - cbn in E. injection E as -> _. specialize (Z0 (A ++ x :: repeat "9"%char m) eq_refl). destruct A; discriminate.
Qed.
Lemma tl_nines2 {A} (x c : A) q n : tl (x :: repeat c q) ++ repeat c n = repeat c (List.length (tl (x :: repeat c q) ++ repeat c n)).
Proof. unfold tl. rewrite <- repeat_app, repeat_length. reflexivity. Qed.
Lemma tl_nines {A} (c : A) q n : tl (repeat c (S q)) ++ repeat c n = repeat c (List.length (tl (repeat c (S q)) ++ repeat c n)).
Proof. apply (tl_nines2 c c q n). Qed.
(** PrettifyRoundUP on  i.f r  with the cursor behind f *)
Lemma round_up_ok pre I F r y tail : canonical I -> Forall is_digit F -> F <> [] ->
  (53 <= ord r -> len I = 1 \/ tl I ++ F <> repeat "9"%char (List.length (tl I ++ F))) ->
  exists I' F' rest, round_up (pre ++ I ++ "."%char :: F ++ r :: y :: tail) (len pre) (len pre + len I + 1 + len F) = Some (pre ++ (I' ++ "."%char :: F') ++ NUL :: rest, len pre + len (I' ++ "."%char :: F')) /\
  canonical I' /\ Forall is_digit F' /\ len F' = len F /\ dec_val (I' ++ F') = dec_val (I ++ F) + carry r.
Proof.
  intros HI HF NF HC. destruct HI as (NI & DI & ZI). set (end_ := len pre + len I + 1 + len F).
  assert (G1 : forall s, s = pre ++ I ++ "."%char :: F ++ r :: y :: tail -> getb s end_ = Some r).
  { intros s ->. replace (pre ++ I ++ "."%char :: F ++ r :: y :: tail) with ((pre ++ I ++ "."%char :: F) ++ r :: y :: tail) by (apps). apply getb_at. unfold end_. lens. lia. }
  unfold round_up. rewrite G1 by reflexivity. cbn [obind]. unfold carry. change (ord "5") with 53. destruct (Z.leb_spec 53 (ord r)) as [HR|HR].
  2:{ cbn [obind]. exists I, F, (y :: tail).
      replace (pre ++ I ++ "."%char :: F ++ r :: y :: tail) with ((pre ++ I ++ "."%char :: F) ++ r :: y :: tail) by (apps).
      rewrite setb_at by (unfold end_; lens; lia). cbn [obind]. split.
      - f_equal. f_equal; [apps|unfold end_; lens; lia].
      - split; [exact (conj NI (conj DI ZI))|]. split; [exact HF|]. split; [reflexivity|lia]. }
  specialize (HC HR). destruct (last_digit F HF NF) as (F0 & l & EF & Dl).
  assert (G2 : getb (pre ++ I ++ "."%char :: F ++ r :: y :: tail) (end_ - 1) = Some l).
  { rewrite EF. replace (pre ++ I ++ "."%char :: (F0 ++ [l]) ++ r :: y :: tail) with ((pre ++ I ++ "."%char :: F0) ++ l :: r :: y :: tail) by (apps). apply getb_at. unfold end_. rewrite EF. lens. lia. }
  rewrite G2. cbn [obind]. destruct (Ascii.eqb_spec l "."); [now apply digit_not in Dl|].
  set (fuel := Z.to_nat (end_ - len pre)).
  assert (LF : (0 < List.length F)%nat) by (destruct F; [now elim NF|cbn; lia]).
  assert (LI : (0 < List.length I)%nat) by (destruct I; [now elim NI|cbn; lia]).
  assert (HFU : (List.length F + List.length I < fuel)%nat) by (unfold fuel, end_, len; lia).
  destruct (nines F HF) as [E9|(A & x & m & EA & Hx)].
  - (* the decimals are all nines *)
    destruct (List.length F) as [|m] eqn:LFE; [lia|].
    destruct (last_digit I DI NI) as (I0 & li & EI & Dli).
    assert (Start : roll fuel (pre ++ I ++ "."%char :: F ++ r :: y :: tail) (len pre) (end_ - 1) end_ =
      roll (fuel - S m) (pre ++ I ++ "."%char :: repeat "0"%char (S m) ++ r :: y :: tail) (len pre) (len (pre ++ I0)) end_).
    { rewrite E9, EI. replace (pre ++ (I0 ++ [li]) ++ "."%char :: repeat "9"%char (S m) ++ r :: y :: tail) with ((pre ++ I0) ++ li :: "."%char :: repeat "9"%char (S m) ++ r :: y :: tail) by (apps).
      replace (end_ - 1) with (len (pre ++ I0) + 2 + Z.of_nat m) by (unfold end_; rewrite EI; unfold len; rewrite !app_length, LFE; cbn [List.length]; lia).
      rewrite roll_point; [f_equal; apps|lia|lens; pose proof (len_pos I0); lia]. }
    rewrite Start. clear Start.
    destruct (nines I DI) as [I9|(A & x & k & EA & Hx)].
    + assert (L1 : len I = 1).
      { destruct HC as [HC|HC]; [exact HC|]. exfalso. apply HC. rewrite E9, I9. destruct (List.length I) as [|q]; [lia|]. apply tl_nines. }
      assert (I = ["9"%char]) as -> by (rewrite I9; replace (List.length I) with 1%nat by (unfold len in L1; lia); reflexivity).
      assert (I0 = []) as -> by (destruct I0 as [|? [|]]; try discriminate EI; reflexivity). rewrite app_nil_r.
      replace (pre ++ ["9"%char] ++ "."%char :: repeat "0"%char (S m) ++ r :: y :: tail) with (pre ++ "9"%char :: ("."%char :: repeat "0"%char (S m)) ++ r :: (y :: tail)) by reflexivity.
      replace end_ with (len pre + 1 + len ("."%char :: repeat "0"%char (S m))) by (unfold end_; unfold len; cbn [List.length]; rewrite repeat_length, LFE; lia).
      rewrite roll_first by reflexivity. cbn [obind].
      replace (pre ++ "1"%char :: "0"%char :: ("."%char :: repeat "0"%char (S m)) ++ y :: tail) with ((pre ++ "1"%char :: "0"%char :: "."%char :: repeat "0"%char (S m)) ++ y :: tail) by (apps).
      rewrite setb_at by (lens; lia). cbn [obind]. exists ["1"%char; "0"%char], (repeat "0"%char (S m)), tail. split.
      * f_equal. f_equal; [apps|lens; lia].
      * split; [split; [discriminate|]; split; [constructor; [|constructor; [|constructor]]; (vm_compute; split; discriminate)|intros t Q; discriminate Q]|]. split; [apply digits_zeros|]. split; [unfold len; rewrite repeat_length; lia|].
        rewrite E9, (dec_val_app ["1"%char; "0"%char]), (dec_val_app ["9"%char]), dec_zeros, dec_nines, !repeat_length. change (dec_val ["1"%char; "0"%char]) with 10. change (dec_val ["9"%char]) with 9. lia.
    + assert (HB : A <> [] \/ k = O).
      { destruct HC as [HC|HC]; [right; rewrite EA in HC; lens; pose proof (len_pos A); lia|]. destruct A; [|left; discriminate]. right. destruct k as [|k]; [reflexivity|]. exfalso. apply HC. rewrite E9, EA. apply (tl_nines2 x _ (S k) (S m)). }
      assert (C0 : len (pre ++ I0) = len (pre ++ A) + Z.of_nat k) by (apply (f_equal len) in EA; rewrite EI in EA; lens; lia).
      rewrite C0, EA. replace (pre ++ (A ++ x :: repeat "9"%char k) ++ "."%char :: repeat "0"%char (S m) ++ r :: y :: tail) with ((pre ++ A) ++ x :: repeat "9"%char k ++ "."%char :: repeat "0"%char (S m) ++ r :: y :: tail) by (apps).
      assert (Hk : (k <= fuel - S m)%nat) by (rewrite EA, app_length in HFU; cbn [List.length] in HFU; rewrite repeat_length in HFU; lia).
      assert (Dx : is_digit x) by (rewrite EA in DI; apply Forall_app in DI as [_ DI]; now inversion DI).
      rewrite roll_to; [|exact Hk|now apply digit_not|exact Hx|destruct HB as [HB|HB]; [left|now right]; destruct A; [now elim HB|lens; pose proof (len_pos A); lia]]. cbn [obind].
      set (I' := A ++ chr (ord x + 1) :: repeat "0"%char k).
      replace ((pre ++ A) ++ chr (ord x + 1) :: repeat "0"%char k ++ "."%char :: repeat "0"%char (S m) ++ r :: y :: tail) with ((pre ++ I' ++ "."%char :: repeat "0"%char (S m)) ++ r :: y :: tail) by (unfold I'; apps).
      assert (LI' : len I' = len I) by (unfold I'; rewrite EA; lens; lia).
      rewrite setb_at by (unfold end_; lens; unfold len; rewrite LFE; unfold len in LI'; lia). cbn [obind]. exists I', (repeat "0"%char (S m)), (y :: tail). split.
      * f_equal. f_equal; [apps|unfold end_; lens; unfold len in *; rewrite LFE; lia].
      * destruct (dec_incr A x k) as [_ HV]; [now rewrite <- EA|exact Hx|]. split; [apply (canon_keep I); [exact (conj NI (conj DI ZI))|exact EA|exact Hx|exact HB]|]. split; [apply digits_zeros|]. split; [unfold len; rewrite repeat_length; lia|].
        rewrite E9, (dec_val_app I'), (dec_val_app (A ++ x :: repeat "9"%char k)), dec_zeros, dec_nines, !repeat_length. fold I' in HV. rewrite HV. lia.
  - assert (Dx : is_digit x) by (rewrite EA in HF; apply Forall_app in HF as [_ HF]; now inversion HF).
    rewrite EA. replace (pre ++ I ++ "."%char :: (A ++ x :: repeat "9"%char m) ++ r :: y :: tail) with ((pre ++ I ++ "."%char :: A) ++ x :: repeat "9"%char m ++ r :: y :: tail) by (apps).
    replace (end_ - 1) with (len (pre ++ I ++ "."%char :: A) + Z.of_nat m) by (unfold end_; rewrite EA; lens; lia).
    rewrite roll_to; [|rewrite EA, app_length in HFU; cbn [List.length] in HFU; rewrite repeat_length in HFU; lia|now apply digit_not|exact Hx|left; lens; pose proof (len_pos I); pose proof (len_pos A); lia]. cbn [obind].
    set (F' := A ++ chr (ord x + 1) :: repeat "0"%char m).
    replace ((pre ++ I ++ "."%char :: A) ++ chr (ord x + 1) :: repeat "0"%char m ++ r :: y :: tail) with ((pre ++ I ++ "."%char :: F') ++ r :: y :: tail) by (unfold F'; apps).
    assert (LF' : len F' = len F) by (unfold F'; rewrite EA; lens; lia).
    rewrite setb_at by (unfold end_; lens; lia). cbn [obind]. exists I, F', (y :: tail). split.
    + f_equal. f_equal; [apps|unfold end_; lens; lia].
    + destruct (dec_incr A x m) as [HD HV]; [now rewrite <- EA|exact Hx|]. fold F' in HD, HV. split; [exact (conj NI (conj DI ZI))|]. split; [exact HD|]. split; [now rewrite <- EA|].
      rewrite (dec_val_app I F'), (dec_val_app I), HV. assert (List.length F' = List.length (A ++ x :: repeat "9"%char m)) as -> by (rewrite <- EA; unfold len in LF'; lia). lia.
Qed.
