(** Properties C09-C13: integer texts and string utilities.
    Specifications: [DecSpec], [StrSpec].  Models: [ItoaModel], [StrModel]. *)
From Coq Require Import ZArith Lia Bool List Ascii String.
From Verif Require Import F64 Str DecSpec ItoaModel ItoaProof StrModel StrSpec StrProof.
Import ListNotations.
Open Scope Z_scope.

(** C09.  to_str of any signed or unsigned 32- or 64-bit integer is its canonical decimal text. *)
Theorem C09_to_str_decimal (w i : Z) :
  (w = 32 \/ w = 64) -> - 2 ^ (w - 1) <= i < 2 ^ w ->
  exists t, to_str_int w i 0 false = Some t /\ int_text i t.
Proof. intros W H. destruct (to_str_int_ok w i W H) as (t & E & T & _). exists t. exact (conj E T). Qed.
(** an integer has only one text and a text denotes only one integer *)
Theorem C09_text_identifies_integer (i j : Z) (t : bytes) : int_text i t -> int_text j t -> i = j.
Proof. apply int_text_inj. Qed.
Example C09_witness : exists t, to_str_int 64 (-9223372036854775808) 0 false = Some t /\ t = B "-9223372036854775808".
Proof. eexists. split; [vm_compute; reflexivity|reflexivity]. Qed.
Example C09_witness_text : int_text (-120) (B "-120").
Proof.
  exists (B "120"). split; [reflexivity|]. split; [|reflexivity]. split; [discriminate|]. split; [|intros t H; discriminate H].
  repeat constructor; vm_compute; discriminate.
Qed.

(** C09 with a width: blanks on the chosen side, for all widths of which the 64-byte fill buffer leaves room *)
Theorem C09_to_str_width (w i n : Z) (right : bool) :
  (w = 32 \/ w = 64) -> - 2 ^ (w - 1) <= i < 2 ^ w -> 0 <= n <= 63 ->
  exists t k, to_str_int w i n right = Some (if right then repeat " "%char k ++ t else t ++ repeat " "%char k) /\
    int_text i t /\ Z.of_nat k = Z.max 0 (n - len t).
Proof.
  intros W H Hn. destruct (to_str_int_ok w i W H) as (t & E & T & _). unfold to_str_int in *.
  destruct (to_text w i (repeat NUL 32)) as [[s b]|]; [|discriminate E]. cbn [obind] in *.
  destruct (cstr s) as [str|]; [|discriminate E]. cbn [obind] in *. unfold to_str_pad in *.
  pose proof (len_nonneg str) as L. change (0 <? 0) with false in E. cbn [orb] in E.
  destruct (Z.leb_spec 64 (0 - len str)); [lia|]. replace (Z.to_nat (0 - len str)) with O in E by lia.
  cbn [repeat] in E. rewrite app_nil_r in E. injection E as <-.
  destruct (Z.ltb_spec n 0); [lia|]. cbn [orb]. destruct (Z.leb_spec 64 (n - len str)); [lia|].
  exists str, (Z.to_nat (n - len str)). split; [reflexivity|]. split; [exact T|]. lia.
Qed.
Example C09_width_witness : to_str_int 32 7 3 true = Some (B "  7").
Proof. vm_compute. reflexivity. Qed.
(** finding: a negative width, or one that needs 64 or more blanks, overruns the buffer *)
Theorem C09_negative_width_refuted : exists i n, to_str_int 32 i n false = None.
Proof. exists 7, (-1). vm_compute. reflexivity. Qed.
Theorem C09_wide_width_refuted : exists i n, 0 <= n /\ to_str_int 32 i n true = None.
Proof. exists 7, 65. split; [lia|]. vm_compute. reflexivity. Qed.

(** C10.  my_stoi inverts to_str when errno is clear. *)
Theorem C10_stoi_inverts_to_str_partial (n : Z) :
  int_min <= n <= int_max ->
  exists t, to_str n = Some t /\ my_stoi false t = (false, stoi_value n).
Proof.
  intros H. destruct (to_str_int_ok 32 n ltac:(now left)) as (t & E & T & _).
  { unfold int_min, int_max in H. change (2 ^ (32 - 1)) with 2147483648. change (2 ^ 32) with 4294967296. lia. }
  exists t. exact (conj E (my_stoi_text n t T H)).
Qed.
Example C10_witness : my_stoi false (B "-2147483648") = (false, stoi_value (-2147483648)).
Proof. vm_compute. reflexivity. Qed.
(** finding: errno is never cleared, so after one out-of-range text EVERY later conversion is rejected *)
Theorem C10_history_refuted :
  exists before, fst (my_stoi false before) = true /\
    forall n, int_min <= n <= int_max -> exists t, to_str n = Some t /\ my_stoi (fst (my_stoi false before)) t = (true, out_of_range).
Proof.
  exists (B "9223372036854775808"). split; [vm_compute; reflexivity|]. intros n H.
  destruct (to_str_int_ok 32 n ltac:(now left)) as (t & E & T & _).
  { unfold int_min, int_max in H. change (2 ^ (32 - 1)) with 2147483648. change (2 ^ 32) with 4294967296. lia. }
  exists t. split; [exact E|]. change (fst (my_stoi false (B "9223372036854775808"))) with true. exact (my_stoi_stale n t T H).
Qed.
(** finding: text outside int but inside long is accepted with a wrong value *)
Theorem C10_out_of_range_refuted : exists i t v, int_text i t /\ ~ int_min <= i <= int_max /\ my_stoi false t = (false, stoi_value v).
Proof.
  exists 4294967296, (B "4294967296"), 0. split.
  - split; [|reflexivity]. split; [discriminate|]. split; [|intros t H; discriminate H]. repeat constructor; vm_compute; discriminate.
  - split; [unfold int_min, int_max; lia|]. vm_compute. reflexivity.
Qed.

(** C11.  string_replace with a non-empty pattern ends, in exactly the specified text. *)
Theorem C11_string_replace (big src dst : bytes) :
  src <> [] ->
  exists r, string_replace big src dst r /\ replaced src dst big r /\ (forall r', string_replace big src dst r' -> r' = r).
Proof.
  intros H. destruct (string_replace_ok big src dst H) as (r & E & R). exists r. split; [exact E|]. split; [exact R|].
  intros r' E'. exact (string_replace_det _ _ _ _ _ E' E).
Qed.
Theorem C11_replaced_is_unique (pat dst s r1 r2 : bytes) : replaced pat dst s r1 -> replaced pat dst s r2 -> r1 = r2.
Proof. apply replaced_det. Qed.
Example C11_witness : string_replace (B "aaab") (B "aa") (B "xaa") (B "xaaab").
Proof. exists 5%nat. vm_compute. reflexivity. Qed.
(** finding: with an empty pattern it never ends *)
Theorem C11_empty_pattern_refuted : exists src, forall big dst r, ~ string_replace big src dst r.
Proof. exists []. intros big dst r. apply string_replace_empty. Qed.

(** C12.  split by one byte. *)
Theorem C12_split_lossless (s : bytes) (c : ascii) :
  exists l, split s [c] = Some l /\ l <> [] /\ Forall (fun p => ~ In c p) l /\ join c l = s /\
    (forall l', l' <> [] -> Forall (fun p => ~ In c p) l' -> join c l' = s -> l' = l).
Proof.
  exists (pieces c s). split; [apply split_one|]. split; [apply pieces_nonnil|]. split; [apply pieces_free|].
  split; [apply pieces_join|]. intros l' N F E. apply (join_unique c); [exact N|apply pieces_nonnil|exact F|apply pieces_free|].
  rewrite E. symmetry. apply pieces_join.
Qed.
Example C12_witness : split (B "a||b|") (B "|") = Some [B "a"; B ""; B "b"; B ""].
Proof. vm_compute. reflexivity. Qed.
(** finding: with a longer separator bytes are lost, or std::out_of_range is thrown *)
Theorem C12_long_separator_lossy_refuted : exists s sep l, split s sep = Some l /\ l = [B "a"; B "c"] /\ s = B "a,bc" /\ sep = B ",;".
Proof. eexists _, _, _. split; [|split; [reflexivity|split; reflexivity]]. vm_compute. reflexivity. Qed.
Theorem C12_long_separator_throws_refuted : exists s sep, split s sep = None.
Proof. exists (B "a,"), (B ",;"). vm_compute. reflexivity. Qed.

(** C13.  fill_str. *)
Theorem C13_fill_str (s : bytes) (n : Z) (c : bytes) :
  len s <= int_max -> int_min + len s <= n <= int_max ->
  exists k, fill_str s n c = Some (List.concat (repeat c k) ++ s) /\ Z.of_nat k = Z.max 0 (n - len s).
Proof.
  intros L H. pose proof (len_nonneg s). unfold fill_str. rewrite mk_int_z by (unfold int_min, int_max in *; lia). cbn [obind].
  exists (Z.to_nat (n - len s)). rewrite iter_app. split; [reflexivity|]. lia.
Qed.
Example C13_witness : fill_str (B "7") 3 (B "ab") = Some (B "abab7") /\ fill_str (B "777") 2 (B "0") = Some (B "777").
Proof. split; vm_compute; reflexivity. Qed.
(** finding: for n near INT_MIN the int subtraction overflows *)
Theorem C13_overflow_refuted : exists s n c, int_min <= n <= int_max /\ fill_str s n c = None.
Proof. exists (B "7"), (-2147483648), (B "0"). split; [unfold int_min, int_max; lia|]. vm_compute. reflexivity. Qed.

Print Assumptions C09_to_str_decimal.
Print Assumptions C09_text_identifies_integer.
Print Assumptions C09_to_str_width.
Print Assumptions C09_negative_width_refuted.
Print Assumptions C09_wide_width_refuted.
Print Assumptions C10_stoi_inverts_to_str_partial.
Print Assumptions C10_history_refuted.
Print Assumptions C10_out_of_range_refuted.
Print Assumptions C11_string_replace.
Print Assumptions C11_replaced_is_unique.
Print Assumptions C11_empty_pattern_refuted.
Print Assumptions C12_split_lossless.
Print Assumptions C12_long_separator_lossy_refuted.
Print Assumptions C12_long_separator_throws_refuted.
Print Assumptions C13_fill_str.
Print Assumptions C13_overflow_refuted.
