(** The hash table: construction, copying, moving, assignment, destruction, comparison and what the unordered containers add. *)
From Coq Require Import ZArith List Bool Lia Permutation SpecFloat.
From Verif Require Import F64 HtModel HtSpec HtProof HtLook HtIns HtRehash HtGrow HtErase.
Import ListNotations.
Open Scope Z_scope.

Section HtCopy.
Context {K T : Type} (key : T -> K) (hashf : K -> Z) (eqb : K -> K -> bool).
Notation memory := (@memory T).
Notation haskey := (haskey key eqb).
Notation rep := (rep key hashf eqb).
Notation len := HtSpec.len.
Implicit Types (m : memory) (t : tab) (a p b c : Z) (v x y : T) (k : K) (l A B X : list (Z * T)) (L : list (list (Z * T))).

Theorem construct_ok m n : wf m -> exists t L, construct n = Some t /\ rep m t L /\ concat L = [] /\ mlf t = one32 /\ In (bsz t) prime_list /\ (n <= max_prime -> n <= bsz t).
Proof.
  intros W. unfold construct. destruct (next_prime_ok n) as (q & E & I & Hle & _). rewrite E. cbn [obind]. exists (mkTab (fun _ => 0) q q 0 one32), (empties q). split; [reflexivity|].
  split; [apply (rep_empty key hashf eqb); [exact W|apply primes_max in I; lia]|]. split; [apply concat_empties|]. split; [reflexivity|]. cbn [bsz]. split; [exact I|]. intros H. now apply Hle.
Qed.
Lemma copy_rest_ok l : forall fuel m c x q, wf m -> seg m l 0 -> c <> 0 -> cell m c = Some (mkNd q x) -> ~ In c (map fst l) -> (length l < fuel)%nat ->
  exists m' l', copy_rest fuel m (hd l 0) c = Some m' /\ map snd l' = map snd l /\ cell m' c = Some (mkNd (hd l' 0) x) /\ seg m' l' 0 /\ NoDup (map fst l') /\
    (forall b, In b (map fst l') -> brk m <= b) /\ wf m' /\ brk m <= brk m' /\ (forall b, b < brk m -> b <> c -> cell m' b = cell m b).
Proof.
  induction l as [|[a v] l IH]; intros fuel m c x q W S Nc Cc I F; (destruct fuel as [|fuel]; [cbn in F; lia|]); cbn [copy_rest hd].
  - rewrite Z.eqb_refl. destruct (set_last m [] c x q 0) as (m' & E & S' & Bm & O & Ca); [cbn [app seg hd]; auto|auto|]. exists m', []. split; [exact E|]. split; [reflexivity|].
    split; [exact Ca|]. split; [exact Logic.I|]. split; [constructor|]. split; [intros b []|]. split; [apply (wf_set m m' c); auto; congruence|]. split; [lia|]. intros b _ Hb. auto.
  - pose proof S as (Na & Ca & S'). rewrite (proj2 (Z.eqb_neq a 0) Na), (seg_get m a v l 0 S). cbn [obind val].
    pose proof (create_ok m v W) as C. destruct (create_node m v) as [m1 d]. destruct C as (Ed & Nd & D0 & D1 & O1 & B1 & W1).
    assert (Dc : d <> c) by (intros ->; congruence).
    destruct (set_last m1 [] c x q d) as (m2 & E2 & S2 & B2 & O2 & C2).
    { cbn [app seg hd]. rewrite O1 by congruence. auto. } { auto. }
    rewrite E2. cbn [obind]. assert (Bc : 0 < c < brk m) by (apply W; congruence).
    assert (U : forall b, b < brk m -> b <> c -> cell m2 b = cell m b) by (intros b Hb Hc; rewrite O2, O1 by lia; reflexivity).
    assert (Sl : forall b, In b (map fst ((a, v) :: l)) -> b < brk m /\ b <> c).
    { intros b Hb. split; [|intros ->; contradiction]. apply (seg_bound m ((a, v) :: l) 0 b W S Hb). }
    assert (S3 : seg m2 ((a, v) :: l) 0) by (eapply seg_ext; [|exact S]; intros b Hb; apply Sl in Hb; apply U; tauto).
    rewrite (seg_get m2 a v l 0 S3). cbn [obind nxt].
    assert (Cd : cell m2 d = Some (mkNd 0 v)) by (rewrite O2 by exact Dc; exact D1).
    destruct (IH fuel m2 d v 0) as (m' & l' & E' & EV & C' & S4 & N' & G' & W' & B' & O'); auto.
    + apply (wf_set m1 m2 c); auto. rewrite O1 by congruence. congruence.
    + apply S3.
    + intros Hd. assert (Hd' : In d (map fst ((a, v) :: l))) by now right. apply Sl in Hd'. lia.
    + cbn in F. lia.
    + assert (Hd : ~ In d (map fst l')) by (intros Q; apply G' in Q; lia).
      exists m', ((d, v) :: l'). split; [exact E'|]. split; [cbn [map snd]; now rewrite EV|]. split; [cbn [hd]; rewrite O' by lia; exact C2|].
      split; [cbn [seg]; auto|]. split; [cbn [map fst]; constructor; auto|]. split; [|split; [exact W'|split; [lia|]]].
      * cbn [map fst]. intros b [<-|Hb]; [lia|]. apply G' in Hb. lia.
      * intros b Hb Hc. rewrite O' by lia. now apply U.
Qed.
Lemma vals_map (M N : list (list (Z * T))) : map (map snd) M = map (map snd) N -> vals M = vals N.
Proof. intros H. unfold vals. rewrite !concat_map, H. reflexivity. Qed.
Lemma copy_loop_ok m0 t (M : list (list (Z * T))) : forall L1 L1' m nb, rep m0 t (L1 ++ M) -> rep m (mkTab nb (bsz t) (bsz t) (len (concat L1')) (mlf t)) (L1' ++ repeat [] (length M)) ->
  map (map snd) L1' = map (map snd) L1 -> brk m0 <= brk m -> (forall b, b < brk m0 -> cell m b = cell m0 b) -> (forall b, In b (addrs L1') -> brk m0 <= b) ->
  exists m' nb' L', copy_loop (length M) m t nb (len L1) = Some (m', nb') /\ rep m' (mkTab nb' (bsz t) (bsz t) (len (concat L')) (mlf t)) L' /\
    map (map snd) L' = map (map snd) (L1 ++ M) /\ brk m0 <= brk m' /\ (forall b, b < brk m0 -> cell m' b = cell m0 b) /\ (forall b, In b (addrs L') -> brk m0 <= b).
Proof.
  induction M as [|l M IH]; intros L1 L1' m nb R0 R EV Bm O G; cbn [length copy_loop repeat].
  - cbn [length repeat] in R. rewrite app_nil_r in R. exists m, nb, L1'. rewrite !app_nil_r. auto 10.
  - cbn [length repeat] in R. assert (EL : len L1' = len L1) by (unfold HtSpec.len; rewrite <- (map_length (map snd) L1'), EV, map_length; reflexivity).
    destruct (rep_at key hashf eqb m0 t L1 l M R0) as (Q1 & Q2 & Q3 & Q4 & Q5 & Q6 & Q7 & Q8). rewrite Q1. cbn [obind].
    assert (ES : len L1 + 1 = len (L1 ++ [l])) by (unfold HtSpec.len; rewrite app_length; cbn; lia). rewrite ES.
    destruct l as [|[a v] l].
    + cbn [hd]. rewrite Z.eqb_refl. destruct (IH (L1 ++ [[]]) (L1' ++ [[]]) m nb) as (m' & nb' & L' & E' & R' & EV' & Bm' & O' & G'); auto.
      * rewrite <- app_assoc. exact R0.
      * rewrite <- app_assoc, concat_app. cbn [concat app]. rewrite app_nil_r. exact R.
      * rewrite !map_app, EV. reflexivity.
      * intros b Hb. rewrite addrs_app in Hb. apply in_app_iff in Hb as [Hb|[]]. auto.
      * exists m', nb', L'. rewrite <- app_assoc in EV'. auto 10.
    + cbn [hd]. pose proof Q2 as (Na & Ca & S'). rewrite (proj2 (Z.eqb_neq a 0) Na).
      assert (Bl : forall b, In b (map fst ((a, v) :: l)) -> b < brk m0) by (intros b Hb; apply (seg_bound m0 ((a, v) :: l) 0 b (r_wf _ _ _ _ _ _ R0) Q2 Hb)).
      assert (Sm : seg m ((a, v) :: l) 0) by (eapply seg_ext; [|exact Q2]; intros b Hb; apply O; auto).
      rewrite (seg_get m a v l 0 Sm). cbn [obind val]. pose proof (create_ok m v (r_wf _ _ _ _ _ _ R)) as C. destruct (create_node m v) as [m1 d]. destruct C as (Ed & Nd & D0 & D1 & O1 & B1 & W1).
      assert (Sm1 : seg m1 ((a, v) :: l) 0) by (eapply seg_ext; [|exact Sm]; intros b Hb; apply O1; apply Bl in Hb; lia).
      rewrite (seg_get m1 a v l 0 Sm1). cbn [obind nxt].
      destruct (copy_rest_ok l (fu m1) m1 d v 0) as (m2 & l' & E2 & EV2 & C2 & S2 & N2 & G2 & W2 & B2 & O2); auto.
      * apply Sm1.
      * intros Hd. assert (Hd' : In d (map fst ((a, v) :: l))) by now right. apply Bl in Hd'. lia.
      * pose proof (seg_fuel m1 ((a, v) :: l) 0 W1 Sm1 Q5) as Fu. cbn [length] in Fu. lia.
      * rewrite E2. cbn [obind]. cbv zeta. match goal with |- context [upd nb ?z d] => replace z with (len L1') by exact EL end. assert (Hd : ~ In d (map fst l')) by (intros Q; apply G2 in Q; lia).
        assert (EVl : map snd ((d, v) :: l') = map snd ((a, v) :: l)) by (cbn [map snd]; now rewrite EV2).
        assert (R2 : rep m2 (mkTab (upd nb (len L1') d) (bsz t) (bsz t) (len (concat (L1' ++ [(d, v) :: l']))) (mlf t)) (L1' ++ ((d, v) :: l') :: repeat [] (length M))).
        { apply rep_upd with (m := m) (t := mkTab nb (bsz t) (bsz t) (len (concat L1')) (mlf t)) (l := []); cbn [bk bl bsz cnt]; auto.
          - rewrite concat_app. cbn [concat]. rewrite app_nil_r. unfold HtSpec.len. rewrite app_length. cbn [length]. lia.
          - cbn [seg]. auto.
          - rewrite EL. apply Forall_forall. intros e Ie. rewrite Forall_forall in Q3. assert (Iv : In (snd e) (map snd ((a, v) :: l))) by (rewrite <- EVl; now apply in_map).
            apply in_map_iff in Iv as (e' & Ee & Ie'). rewrite <- Ee. exact (Q3 e' Ie').
          - rewrite EVl. exact Q4.
          - cbn [map fst]. constructor; auto.
          - intros b Hb C. rewrite addrs_app in C. apply in_app_iff in C as [C|C].
            + assert (Ib : In b (addrs (L1' ++ [] :: repeat [] (length M)))) by (rewrite addrs_app; apply in_or_app; auto). apply (rep_in key hashf eqb m _ _ b R) in Ib. cbn [map fst] in Hb.
              destruct Hb as [<-|Hb]; [lia|]. apply G2 in Hb. lia.
            + unfold addrs in C. rewrite concat_nils in C. exact C.
          - intros b Hb. assert (Ib : In b (addrs (L1' ++ [] :: repeat [] (length M)))) by (apply addrs_mid; auto). apply (rep_in key hashf eqb m _ _ b R) in Ib.
            rewrite O2, O1 by lia. reflexivity. }
        destruct (IH (L1 ++ [(a, v) :: l]) (L1' ++ [(d, v) :: l']) m2 (upd nb (len L1') d)) as (m' & nb' & L' & E' & R' & EV' & Bm' & O' & G'); auto.
        -- rewrite <- app_assoc. exact R0.
        -- rewrite <- app_assoc. exact R2.
        -- rewrite !map_app, EV. cbn [map snd]. rewrite EV2. reflexivity.
        -- lia.
        -- intros b Hb. rewrite O2, O1 by lia. auto.
        -- intros b Hb. rewrite addrs_app in Hb. apply in_app_iff in Hb as [Hb|Hb]; [auto|]. unfold addrs in Hb. cbn [concat map fst] in Hb. rewrite app_nil_r in Hb. cbn [map fst] in Hb.
           destruct Hb as [<-|Hb]; [lia|]. apply G2 in Hb. lia.
        -- exists m', nb', L'. rewrite <- app_assoc in EV'. auto 10.
Qed.
Theorem copy_construct_ok m t L : rep m t L -> exists m' t' L', copy_construct m t = Some (m', t') /\ rep m' t' L' /\ map (map snd) L' = map (map snd) L /\
  bsz t' = bsz t /\ mlf t' = mlf t /\ brk m <= brk m' /\ (forall b, b < brk m -> cell m' b = cell m b) /\ (forall b, In b (addrs L') -> brk m <= b).
Proof.
  intros R. unfold copy_construct. pose proof (r_len _ _ _ _ _ _ R) as EN. pose proof (r_cnt _ _ _ _ _ _ R) as EC. replace (Z.to_nat (bsz t)) with (length L) by (unfold HtSpec.len in EN; lia).
  destruct (copy_loop_ok m t L [] [] m (fun _ => 0)) as (m' & nb' & L' & E' & R' & EV & B' & O' & G'); auto.
  - pose proof (rep_empty key hashf eqb m (bsz t) (mlf t) (r_wf _ _ _ _ _ _ R) (r_pos _ _ _ _ _ _ R)) as RE. unfold empties in RE. replace (Z.to_nat (bsz t)) with (length L) in RE by (unfold HtSpec.len in EN; lia). exact RE.
  - lia.
  - intros b [].
  - change (len (@nil (list (Z * T)))) with 0 in E'. rewrite E'. cbn [obind app] in *. eexists _, _, L'. split; [reflexivity|].
    assert (Ec : cnt t = len (concat L')). { rewrite EC. unfold HtSpec.len. f_equal. rewrite <- (map_length snd), <- (map_length snd (concat L')). fold (vals L) (vals L'). now rewrite (vals_map _ _ EV). }
    rewrite Ec. cbn [bsz mlf]. auto 10.
Qed.
End HtCopy.

Section HtLife.
Context {K T : Type} (key : T -> K) (hashf : K -> Z) (eqb : K -> K -> bool).
Hypothesis KO : key_ok hashf eqb.
Notation memory := (@memory T).
Notation haskey := (haskey key eqb).
Notation rep := (rep key hashf eqb).
Notation len := HtSpec.len.
Notation less := (less key hashf eqb).
Implicit Types (m : memory) (t : tab) (a p b c : Z) (v x y : T) (k : K) (l A B X : list (Z * T)) (L : list (list (Z * T))).

Definition apart L1 L2 : Prop := forall b, In b (addrs L1) -> ~ In b (addrs L2).
Theorem destruct_ok m t L : rep m t L -> exists m', destruct_tab m t = Some m' /\ wf m' /\ brk m' = brk m /\ (forall b, In b (addrs L) -> cell m' b = None) /\ (forall b, ~ In b (addrs L) -> cell m' b = cell m b).
Proof.
  intros R. destruct (clear_ok key hashf eqb m t L R) as (m' & t' & L' & E & (R' & F & _ & B & _) & EC). unfold destruct_tab. rewrite E. cbn [obind]. exists m'. split; [reflexivity|].
  split; [apply (r_wf _ _ _ _ _ _ R')|]. split; [exact B|]. assert (N : forall b, ~ In b (addrs L')) by (intros b; unfold addrs; rewrite EC; auto).
  split; intros b Hb; now apply (F b (N b)).
Qed.
Theorem copy_assign_ok m t L u N : rep m t L -> rep m u N -> apart L N -> exists m' t' L', copy_assign m t u = Some (m', t') /\ rep m' t' L' /\ rep m' u N /\ apart L' N /\
  map (map snd) L' = map (map snd) N /\ bsz t' = bsz u /\ mlf t' = mlf u /\ (forall b, In b (addrs L) -> cell m' b = None) /\ (forall b, cell m b <> None -> ~ In b (addrs L) -> cell m' b = cell m b).
Proof.
  intros R RU AP. unfold copy_assign. destruct (copy_construct_ok key hashf eqb m u N RU) as (m1 & t1 & L1 & E1 & R1 & EV & Eb & Em & B1 & O1 & G1). rewrite E1. cbn [obind swap_tab].
  assert (W : forall b, cell m b <> None -> b < brk m) by (intros b Hb; apply (r_wf _ _ _ _ _ _ R) in Hb; lia).
  assert (HL : forall b, In b (addrs L) -> b < brk m) by (intros b Hb; apply (rep_in key hashf eqb m t L b R) in Hb; lia).
  assert (HN : forall b, In b (addrs N) -> b < brk m) by (intros b Hb; apply (rep_in key hashf eqb m u N b RU) in Hb; lia).
  assert (R2 : rep m1 t L) by (apply (rep_ext key hashf eqb m); auto; apply (r_wf _ _ _ _ _ _ R1)).
  destruct (destruct_ok m1 t L R2) as (m' & E' & W' & B' & C' & O'). rewrite E'. cbn [obind]. exists m', t1, L1. split; [reflexivity|].
  assert (D : forall b, In b (addrs L1) -> ~ In b (addrs L)) by (intros b Hb Q; apply G1 in Hb; apply HL in Q; lia).
  split; [apply (rep_ext key hashf eqb m1); auto|]. split; [|split; [|split; [exact EV|split; [exact Eb|split; [exact Em|split; [exact C'|]]]]]].
  - apply (rep_ext key hashf eqb m); auto. intros b Hb. rewrite O' by (intros Q; exact (AP b Q Hb)). apply O1. auto.
  - intros b Hb Q. apply G1 in Hb. apply HN in Q. lia.
  - intros b Hb Q. rewrite O' by exact Q. apply O1. auto.
Qed.
(** the table moved from *)
Definition moved : tab := mkTab (fun _ => 0) 0 0 0 zero32.
Theorem move_assign_ok m t L u N : rep m t L -> rep m u N -> apart L N -> exists m', move_assign m t u = Some (m', u, moved) /\ rep m' u N /\
  (forall b, In b (addrs L) -> cell m' b = None) /\ (forall b, ~ In b (addrs L) -> cell m' b = cell m b).
Proof.
  intros R RU AP. unfold move_assign, move_construct, swap_tab. destruct (destruct_ok m t L R) as (m' & E' & W' & B' & C' & O'). rewrite E'. cbn [obind]. exists m'. split; [reflexivity|].
  split; [|auto]. apply (rep_ext key hashf eqb m); auto. intros b Hb. apply O'. intros Q. exact (AP b Q Hb).
Qed.
Theorem moved_find m k : find key hashf eqb m moved k = None. Proof. reflexivity. Qed.
Theorem moved_count m k : count key hashf eqb m moved k = None. Proof. reflexivity. Qed.
Theorem moved_erase m k : erase_unique key hashf eqb m moved k = None. Proof. reflexivity. Qed.
Theorem moved_index m k d : u_index key hashf eqb m moved k d = None. Proof. reflexivity. Qed.
Theorem moved_grows m : wf m -> exists t', rehash_if_need key hashf eqb m moved 1 = Some (m, t') /\ rep m t' (empties 101).
Proof.
  intros W. eexists. split; [vm_compute; reflexivity|]. apply (rep_empty key hashf eqb m 101 zero32 W). lia.
Qed.

(** ** comparison *)
Section Equal.
Variable veq : T -> T -> bool.
Lemma eq_loop_ok m t u N L B : forall A fuel, rep m t L -> rep m u N -> distinct key eqb (vals N) -> concat L = A ++ B -> (length B < fuel)%nat -> exists r, eq_loop key hashf eqb fuel m veq t u (hd B 0) = Some r /\
  (r = true <-> forall x, In x (map snd B) -> exists y, In y (vals N) /\ eqb (key y) (key x) = true /\ veq y x = true).
Proof.
  induction B as [|[a v] B IH]; intros A fuel R RU D EC F; (destruct fuel as [|fuel]; [cbn in F; lia|]); cbn [eq_loop hd].
  - exists true. split; [reflexivity|]. split; [intros _ x []|auto].
  - assert (Ia : In a (addrs L)) by (unfold addrs; rewrite EC, map_app; apply in_elt). destruct (rep_in key hashf eqb m t L a R Ia) as (Na & _ & _). rewrite (proj2 (Z.eqb_neq a 0) Na).
    pose proof EC as EC'. apply concat_split in EC' as (M1 & A1 & B1 & M2 & EL & _ & _). pose proof R as R'. rewrite EL in R'. destruct (rep_at key hashf eqb m t M1 _ M2 R') as (_ & S & _).
    apply seg_app in S as [_ S]. rewrite (seg_get m a v B1 0 S). cbn [obind val]. clear M1 A1 B1 M2 EL R' S.
    destruct (find_ok key hashf eqb KO m u N (key v) RU) as (p & Ef & [[-> Fa]|[Np (y & Iy & Hy)]]); rewrite Ef; cbn [obind].
    + rewrite Z.eqb_refl. exists false. split; [reflexivity|]. split; [discriminate|]. intros H. destruct (H v) as (y & Iy & Hy & _); [now left|]. exfalso.
      unfold vals in Iy. apply in_map_iff in Iy as (e & Ee & Ie). rewrite Forall_forall in Fa. specialize (Fa e Ie). unfold HtSpec.haskey in Fa. congruence.
    + rewrite (proj2 (Z.eqb_neq p 0) Np). assert (G : exists r, get m p = Some (mkNd r y)).
      { apply in_concat in Iy as (l & Il & Ip). apply In_nth_error in Il as [i Hi]. destruct (r_b _ _ _ _ _ _ RU i l Hi) as (_ & S & _). destruct (seg_in m l 0 p y S Ip) as (_ & r & C).
        exists r. unfold get. rewrite (proj2 (Z.eqb_neq p 0) Np). exact C. }
      destruct G as [r G]. rewrite G. cbn [obind val].
      assert (U : forall z, In z (vals N) -> eqb (key z) (key v) = true -> z = y).
      { intros z Iz Hz. assert (Iy' : In y (vals N)) by (unfold vals; apply in_map_iff; exists (p, y); auto). clear - D Iz Hz Iy' Hy KO.
        assert (Sz : same key eqb z y) by (unfold HtSpec.same; eapply (k_trans _ _ KO); [exact Hz|apply (k_sym _ _ KO), Hy]).
        induction (vals N) as [|w l IH]; [destruct Iz|]. cbn [HtSpec.distinct] in D. destruct D as [F D]. rewrite Forall_forall in F. destruct Iz as [->|Iz], Iy' as [->|Iy']; auto.
        - exfalso. exact (F _ Iy' Sz).
        - exfalso. apply (F _ Iz). apply (k_sym _ _ KO). exact Sz. }
      destruct (veq y v) eqn:Ev.
      * rewrite (inc_ok key hashf eqb m t L a v A B R EC). cbn [obind]. destruct (IH (A ++ [(a, v)]) fuel R RU D) as (r' & E' & H'); [rewrite <- app_assoc; exact EC|cbn in F; lia|].
        exists r'. split; [exact E'|]. rewrite H'. cbn [map snd]. split; intros H x.
        -- intros [<-|Hx]; [|auto]. exists y. split; [unfold vals; apply in_map_iff; exists (p, y); auto|auto].
        -- intros Hx. apply H. now right.
      * exists false. split; [reflexivity|]. split; [discriminate|]. intros H. destruct (H v) as (z & Iz & Hz & Vz); [now left|]. rewrite (U z Iz Hz) in Vz. congruence.
Qed.
Theorem equal_to_unique_ok m t L u N : rep m t L -> rep m u N -> distinct key eqb (vals N) -> exists r, equal_to_unique key hashf eqb m veq t u = Some r /\
  (r = true <-> length (vals L) = length (vals N) /\ forall x, In x (vals L) -> exists y, In y (vals N) /\ eqb (key y) (key x) = true /\ veq y x = true).
Proof.
  intros R RU D. unfold equal_to_unique. pose proof (r_cnt _ _ _ _ _ _ R) as E1. pose proof (r_cnt _ _ _ _ _ _ RU) as E2. unfold vals. rewrite !map_length. fold (vals L) (vals N). unfold HtSpec.len in *.
  destruct (Z.eqb_spec (cnt t) (cnt u)) as [E|NE]; cbn [negb].
  - rewrite (begin_ok key hashf eqb m t L R). cbn [obind]. destruct (eq_loop_ok m t u N L (concat L) [] (fu m) R RU D eq_refl) as (r & E' & H).
    + unfold fu. pose proof (bounded_len (addrs L) (brk m) (r_nd _ _ _ _ _ _ R)) as Bd. unfold addrs in Bd at 2. rewrite map_length in Bd.
      assert (length (concat L) <= Z.to_nat (brk m))%nat by (apply Bd; intros a Ha; apply (rep_in key hashf eqb m t L a R Ha)). lia.
    + exists r. split; [exact E'|]. rewrite H. fold (vals L). split; [intros Q; split; [lia|exact Q]|tauto].
  - exists false. split; [reflexivity|]. split; [discriminate|]. intros [C _]. lia.
Qed.
End Equal.

(** ** the unordered containers *)
Theorem u_construct_unique_ok m n vs : wf m -> exists m' t' L', u_construct_unique key hashf eqb m n vs = Some (m', t') /\ rep m' t' L' /\
  Permutation (vals L') (adds key eqb [] vs) /\ (forall b, cell m b <> None -> cell m' b = cell m b).
Proof.
  intros W. unfold u_construct_unique. destruct (construct_ok key hashf eqb m (Z.max n (Z.of_nat (length vs))) W) as (t & L & E & R & EC & _). rewrite E. cbn [obind].
  destruct (unique_loop_ok key hashf eqb KO vs m t L R) as (m' & t' & L' & X & E' & (R' & P & G & F & _) & EX). exists m', t', L'. split; [exact E'|]. split; [exact R'|].
  assert (Ev : vals L = []) by (unfold vals; now rewrite EC). rewrite Ev in EX. split; [rewrite (vals_more _ _ _ P), Ev; exact EX|].
  intros b Hb. assert (Bb : b < brk m) by (apply W in Hb; lia). destruct (F b) as [_ F2].
  - intros Q. apply (addrs_more _ _ _ b P) in Q as [Q|Q]; [apply G in Q; lia|]. unfold addrs in Q. rewrite EC in Q. exact Q.
  - apply F2. unfold addrs. rewrite EC. auto.
Qed.
Theorem u_construct_multi_ok m n vs : wf m -> exists m' t' L', u_construct_multi key hashf eqb m n vs = Some (m', t') /\ rep m' t' L' /\
  Permutation (vals L') vs /\ (forall b, cell m b <> None -> cell m' b = cell m b).
Proof.
  intros W. unfold u_construct_multi. destruct (construct_ok key hashf eqb m (Z.max n (Z.of_nat (length vs))) W) as (t & L & E & R & EC & _). rewrite E. cbn [obind].
  destruct (multi_loop_ok key hashf eqb KO vs m t L R) as (m' & t' & L' & X & E' & (R' & P & G & F & _) & EX). exists m', t', L'. split; [exact E'|]. split; [exact R'|].
  assert (Ev : vals L = []) by (unfold vals; now rewrite EC). split; [rewrite (vals_more _ _ _ P), Ev, EX, app_nil_r; now rewrite <- Permutation_rev|].
  intros b Hb. assert (Bb : b < brk m) by (apply W in Hb; lia). destruct (F b) as [_ F2].
  - intros Q. apply (addrs_more _ _ _ b P) in Q as [Q|Q]; [apply G in Q; lia|]. unfold addrs in Q. rewrite EC in Q. exact Q.
  - apply F2. unfold addrs. rewrite EC. auto.
Qed.
Theorem reserve_ok m t L n : rep m t L -> match reserve key hashf eqb m t n with
  | Some (m', t') => exists L', grown key hashf eqb m t L m' t' L'
  | None => match ftruncZ (SFadd 24 128 (SFdiv 24 128 (f32Z n) (mlf t)) half32) with Some c => ~ (0 <= c < 2 ^ 64) | None => True end end.
Proof.
  intros R. unfold reserve. destruct (ftruncZ _) as [c|]; cbn [obind]; [|exact I]. destruct ((0 <=? c) && (c <? 2 ^ 64)) eqn:E.
  - destruct (rehash_ok key hashf eqb KO m t L c R) as (m' & t' & L' & E' & G & _). rewrite E'. eauto.
  - intros C. apply andb_false_iff in E as [E|E]; lia.
Qed.
Lemma grown_empty m t L m' t' L' : rep m t L -> concat L = [] -> grown key hashf eqb m t L m' t' L' -> rep m' t' L' /\ concat L' = [] /\ (forall b, b < brk m -> cell m' b = cell m b) /\ brk m <= brk m'.
Proof.
  intros R EC (R' & P & _ & B & O). split; [exact R'|]. unfold vals in P. rewrite EC in P. cbn [map] in P. apply Permutation_sym, Permutation_nil in P.
  split; [now destruct (concat L')|]. split; [|exact B]. intros b Hb. apply O; [exact Hb|]. unfold addrs. rewrite EC. auto.
Qed.
Theorem u_assign_unique_ok m t L vs : rep m t L -> (exists c, ftruncZ (SFadd 24 128 (SFdiv 24 128 (f32Z (Z.of_nat (length vs))) (mlf t)) half32) = Some c /\ 0 <= c < 2 ^ 64) ->
  exists m' t' L', u_assign_unique key hashf eqb m t vs = Some (m', t') /\ rep m' t' L' /\ Permutation (vals L') (adds key eqb [] vs) /\ others m L m'.
Proof.
  intros R (c & Ec & Hc). unfold u_assign_unique. destruct (clear_ok key hashf eqb m t L R) as (m1 & t1 & L1 & E1 & (R1 & F1 & _ & B1 & _ & M1) & EC1). rewrite E1. cbn [obind].
  pose proof (reserve_ok m1 t1 L1 (Z.of_nat (length vs)) R1) as H. rewrite M1, Ec in H. destruct (reserve key hashf eqb m1 t1 (Z.of_nat (length vs))) as [[m2 t2]|]; [|contradiction].
  destruct H as (L2 & G2). destruct (grown_empty _ _ _ _ _ _ R1 EC1 G2) as (R2 & EC2 & O2 & B2). cbn [obind].
  destruct (unique_loop_ok key hashf eqb KO vs m2 t2 L2 R2) as (m' & t' & L' & X & E' & (R' & P & G & F & _) & EX). exists m', t', L'. split; [exact E'|]. split; [exact R'|].
  assert (Ev : vals L2 = []) by (unfold vals; now rewrite EC2). rewrite Ev in EX. split; [rewrite (vals_more _ _ _ P), Ev; exact EX|].
  intros b Hb Ib. assert (Bb : b < brk m) by (apply (r_wf _ _ _ _ _ _ R) in Hb; lia). destruct (F b) as [_ F2].
  - intros Q. apply (addrs_more _ _ _ b P) in Q as [Q|Q]; [apply G in Q; lia|]. unfold addrs in Q. rewrite EC2 in Q. exact Q.
  - rewrite F2 by (unfold addrs; rewrite EC2; auto). rewrite O2 by lia. apply F1; [unfold addrs; rewrite EC1; auto|exact Ib].
Qed.
Theorem u_assign_multi_ok m t L vs : rep m t L -> (exists c, ftruncZ (SFadd 24 128 (SFdiv 24 128 (f32Z (Z.of_nat (length vs))) (mlf t)) half32) = Some c /\ 0 <= c < 2 ^ 64) ->
  exists m' t' L', u_assign_multi key hashf eqb m t vs = Some (m', t') /\ rep m' t' L' /\ Permutation (vals L') vs /\ others m L m'.
Proof.
  intros R (c & Ec & Hc). unfold u_assign_multi. destruct (clear_ok key hashf eqb m t L R) as (m1 & t1 & L1 & E1 & (R1 & F1 & _ & B1 & _ & M1) & EC1). rewrite E1. cbn [obind].
  pose proof (reserve_ok m1 t1 L1 (Z.of_nat (length vs)) R1) as H. rewrite M1, Ec in H. destruct (reserve key hashf eqb m1 t1 (Z.of_nat (length vs))) as [[m2 t2]|]; [|contradiction].
  destruct H as (L2 & G2). destruct (grown_empty _ _ _ _ _ _ R1 EC1 G2) as (R2 & EC2 & O2 & B2). cbn [obind].
  destruct (multi_loop_ok key hashf eqb KO vs m2 t2 L2 R2) as (m' & t' & L' & X & E' & (R' & P & G & F & _) & EX). exists m', t', L'. split; [exact E'|]. split; [exact R'|].
  assert (Ev : vals L2 = []) by (unfold vals; now rewrite EC2). split; [rewrite (vals_more _ _ _ P), Ev, EX, app_nil_r; now rewrite <- Permutation_rev|].
  intros b Hb Ib. assert (Bb : b < brk m) by (apply (r_wf _ _ _ _ _ _ R) in Hb; lia). destruct (F b) as [_ F2].
  - intros Q. apply (addrs_more _ _ _ b P) in Q as [Q|Q]; [apply G in Q; lia|]. unfold addrs in Q. rewrite EC2 in Q. exact Q.
  - rewrite F2 by (unfold addrs; rewrite EC2; auto). rewrite O2 by lia. apply F1; [unfold addrs; rewrite EC1; auto|exact Ib].
Qed.
Theorem u_index_ok m t L k d : rep m t L -> eqb (key d) k = true -> exists m' t' L' p, u_index key hashf eqb m t k d = Some (m', t', p) /\ rep m' t' L' /\ others m L m' /\
  ((exists w, In w (vals L) /\ eqb (key w) k = true /\ In (p, w) (concat L') /\ m' = m /\ t' = t /\ L' = L) \/
   (Forall (fun w => eqb (key w) k = false) (vals L) /\ In (p, d) (concat L') /\ Permutation (vals L') (d :: vals L))).
Proof.
  intros R Hd. unfold u_index. destruct (find_ok key hashf eqb KO m t L k R) as (p & Ef & [[-> Fa]|[Np (y & Iy & Hy)]]); rewrite Ef; cbn [obind].
  - rewrite Z.eqb_refl. destruct (emplace_unique_ok key hashf eqb KO m t L d R) as (m' & t' & L' & p & b & E & R' & O & _ & H). rewrite E. cbn [obind fst]. exists m', t', L', p.
    split; [reflexivity|]. split; [exact R'|]. split; [exact O|]. right.
    assert (Fv : Forall (fun w => eqb (key w) k = false) (vals L)).
    { apply Forall_forall. intros w Iw. unfold vals in Iw. apply in_map_iff in Iw as (e & <- & Ie). rewrite Forall_forall in Fa. exact (Fa e Ie). }
    split; [exact Fv|]. destruct b; [tauto|]. exfalso. destruct H as (P & (w & Iw & Hw) & _). assert (Iv : In w (vals L)).
    { apply (Permutation_in _ P). unfold vals. apply in_map_iff. exists (p, w). auto. }
    rewrite Forall_forall in Fv. specialize (Fv w Iv). rewrite (k_trans _ _ KO _ _ _ Hw Hd) in Fv. discriminate.
  - rewrite (proj2 (Z.eqb_neq p 0) Np). exists m, t, L, p. split; [reflexivity|]. split; [exact R|]. split; [now intros b _ _|]. left. exists y. split; [unfold vals; apply in_map_iff; exists (p, y); auto|]. auto.
Qed.
Theorem u_at_ok m t L k : rep m t L -> match u_at key hashf eqb m t k with
  | Some p => exists w, In (p, w) (concat L) /\ eqb (key w) k = true
  | None => Forall (fun e => haskey k e = false) (concat L) end.
Proof.
  intros R. unfold u_at. destruct (find_ok key hashf eqb KO m t L k R) as (p & Ef & [[-> Fa]|[Np (y & Iy & Hy)]]); rewrite Ef; cbn [obind].
  - rewrite Z.eqb_refl. exact Fa.
  - rewrite (proj2 (Z.eqb_neq p 0) Np). eauto.
Qed.
End HtLife.
