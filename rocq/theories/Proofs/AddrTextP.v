(** netip.ParsePrefix accepts exactly the texts of Spec/AddrText.v (C108). *)
From Coq Require Import ZArith ZifyBool ZifyNat ZifyN.
From Verif Require Import Lib.Str Model.Format Spec.AddrText Proofs.FormatP.
From Coq Require Import List.
Import ListNotations.
Local Open Scope N_scope.

(** * Texts with separators *)
Lemma sep_split (x : N) (a b c d : bytes) : ~ In x a -> ~ In x c -> a ++ x :: b = c ++ x :: d -> a = c /\ b = d.
Proof.
  revert c. induction a as [|y a IH]; intros [|z c] Ha Hc H; cbn [app] in H.
  - injection H as <-. auto.
  - injection H as -> _. exfalso. apply Hc. now left.
  - injection H as <- _. exfalso. apply Ha. now left.
  - injection H as <- H. destruct (IH c) as [-> ->]; auto; intros HI; [apply Ha|apply Hc]; now right.
Qed.
Lemma split_last_some c s a b : split_last c s = Some (a, b) -> s = a ++ c :: b /\ ~ In c b.
Proof.
  assert (G : forall s, split_last c s = None -> ~ In c s).
  { induction s0 as [|x s0 IH]; [intros _ []|]. cbn [split_last]. destruct (split_last c s0) as [[p r]|]; [discriminate|].
    destruct (x =? c) eqn:E; [discriminate|]. intros _ [->|H]; [lia|]. now apply IH. }
  revert a b. induction s as [|x s IH]; intros a b; cbn [split_last]; [discriminate|].
  destruct (split_last c s) as [[p r]|] eqn:ES.
  - intros H. injection H as <- <-. destruct (IH p r eq_refl) as [-> HN]. auto.
  - destruct (x =? c) eqn:E; [|discriminate]. intros H. injection H as <- <-. apply N.eqb_eq in E. subst x. split; [reflexivity|]. now apply G.
Qed.

(** * Decimal numbers *)
Definition digs (t : bytes) : Prop := Forall (fun c => 48 <= c <= 57) t.
Definition val10 (t : bytes) : N := fold_left (fun a c => 10 * a + (c - 48)) t 0.
Lemma val10_snoc t c : val10 (t ++ [c]) = 10 * val10 t + (c - 48).
Proof. unfold val10. now rewrite fold_left_app. Qed.
Lemma val10_mono t r : val10 t <= val10 (t ++ r).
Proof.
  induction r as [|c r IH] using rev_ind; [rewrite app_nil_r; lia|]. rewrite app_assoc, val10_snoc. lia.
Qed.
Lemma undec_spec s : forall acc n, undec acc s = Some n <-> digs s /\ n = fold_left (fun a c => 10 * a + (c - 48)) s acc.
Proof.
  induction s as [|c s IH]; intros acc n; cbn [undec fold_left].
  - split; [intros H; injection H as <-; split; [constructor|reflexivity]|intros [_ ->]; reflexivity].
  - unfold is_digit. destruct ((48 <=? c) && (c <=? 57)) eqn:E.
    + rewrite IH, (N.mul_comm acc 10). split; intros [H1 H2]; (split; [|exact H2]); [constructor; [lia|exact H1]|now inversion H1].
    + split; [discriminate|]. intros [H _]. inversion H; lia.
Qed.
Lemma digs_no t x : digs t -> x < 48 \/ 57 < x -> ~ In x t.
Proof. intros H HX HI. unfold digs in H. rewrite Forall_forall in H. specialize (H x HI). lia. Qed.
Lemma decimal_digs t n : decimal t n -> digs t /\ t <> [] /\ n = val10 t.
Proof. intros (H1 & H2 & _ & H3). auto. Qed.

(** * Dotted addresses *)
Inductive dots : bytes -> list N -> Prop :=
| dt_one t n : decimal t n -> n < 256 -> dots t [n]
| dt_more t n u l : decimal t n -> n < 256 -> dots u l -> dots (t ++ 46 :: u) (n :: l).
Lemma dots_chars t l : dots t l -> Forall (fun c => 48 <= c <= 57 \/ c = 46) t /\ t <> [].
Proof.
  intros H. induction H as [t n H _|t n u l H _ _ [IH _]]; apply decimal_digs in H; destruct H as (H & HN & _).
  - split; [|exact HN]. eapply Forall_impl; [|exact H]. cbn. lia.
  - split; [|now destruct t]. apply Forall_app. split; [eapply Forall_impl; [|exact H]; cbn; lia|]. constructor; auto.
Qed.
Lemma dots_four t a b c d : dots t [a; b; c; d] <-> dotted t a b c d.
Proof.
  split.
  - intros H. inversion H as [|ta ? u l Da La D1]; subst. inversion D1 as [|tb ? u2 l2 Db Lb D2]; subst.
    inversion D2 as [|tc ? u3 l3 Dc Lc D3]; subst. inversion D3 as [td ? Dd Ld|? ? ? ? ? ? D4]; subst; [|inversion D4].
    exists ta, tb, tc, u3. cbn [app]. auto 12.
  - intros (ta & tb & tc & td & -> & Da & Db & Dc & Dd & La & Lb & Lc & Ld).
    apply (dt_more ta); auto. apply (dt_more tb); auto. apply (dt_more tc); auto. now apply dt_one.
Qed.
Lemma dots_first w s l : digs w -> dots (w ++ s) l -> exists t r n, t = w ++ r /\ decimal t n /\ n < 256.
Proof.
  intros HW H. inversion H as [t n D L E1 E2|t n u m D L D2 E1 E2]; subst.
  - exists (w ++ s), s, n. auto.
  - exists t. pose proof (decimal_digs t n D) as (HT & _ & _).
    assert (HX : exists r, t = w ++ r).
    { clear - HW HT E1. revert t HT E1. induction w as [|x w IH]; intros t HT E1; [exists t; reflexivity|].
      destruct t as [|y t]; cbn [app] in E1.
      - injection E1 as E1 _. inversion HW; subst. lia.
      - injection E1 as <- E1. inversion HW; subst. inversion HT; subst. destruct (IH H2 t H4 E1) as [r ->]. exists r. reflexivity. }
    destruct HX as [r ->]. exists r, n. auto.
Qed.
Lemma dots_dot w s l : digs w -> dots (w ++ 46 :: s) l -> exists n m, l = n :: m /\ decimal w n /\ n < 256 /\ dots s m.
Proof.
  intros HW H. assert (NW : ~ In 46 w) by (apply digs_no; auto; lia). inversion H as [t n D L E1 E2|t n u m D L D2 E1 E2]; subst.
  - exfalso. pose proof (decimal_digs _ _ D) as (HT & _ & _). apply Forall_app in HT. destruct HT as [_ HT]. inversion HT; lia.
  - pose proof (decimal_digs _ _ D) as (HT & _ & _). assert (NT : ~ In 46 t) by (apply digs_no; auto; lia).
    destruct (sep_split 46 t u w s NT NW E1) as [-> ->]. exists n, m. auto.
Qed.
(** The state of the loop: [cur] is the number being read. *)
Definition reading (cur : bytes) (first prevdot : bool) (val : N) (digLen : nat) (fields : list N) (s : bytes) : Prop :=
  digs cur /\ val = val10 cur /\ digLen = length cur /\ (cur = [] \/ cur = [48] \/ hd 48 cur <> 48) /\ val < 256 /\
  (first = true <-> cur = [] /\ fields = []) /\ (prevdot = true <-> cur = [] /\ fields <> []) /\
  (cur = [] -> fields <> [] -> s <> []) /\ (length fields <= 3)%nat.
Lemma reading_digit cur f pd val dl flds c s : reading cur f pd val dl flds (c :: s) -> 48 <= c <= 57 ->
  ~ (dl = 1%nat /\ val = 0) -> val * 10 + (c - 48) <= 255 ->
  reading (cur ++ [c]) false false (val * 10 + (c - 48)) (S dl) flds s.
Proof.
  intros (R1 & R2 & R3 & R4 & R5 & R6 & R7 & R8 & R9) Hc HZ HV. unfold reading.
  split; [apply Forall_app; split; [exact R1|constructor; [exact Hc|constructor]]|].
  split; [rewrite val10_snoc; lia|]. split; [rewrite app_length; cbn; lia|]. split.
  - destruct R4 as [-> | [-> | R4]].
    + cbn [app hd]. right. destruct (N.eq_dec c 48) as [->|]; [now left|now right].
    + exfalso. apply HZ. cbn in R2, R3. lia.
    + right. right. destruct cur; [cbn in R4; lia|exact R4].
  - split; [lia|]. split; [split; [discriminate|intros [H _]; now destruct cur]|].
    split; [split; [discriminate|intros [H _]; now destruct cur]|]. split; [intros H; now destruct cur|exact R9].
Qed.
Lemma decimal_cur cur n : digs cur -> cur <> [] -> (cur = [] \/ cur = [48] \/ hd 48 cur <> 48) -> n = val10 cur -> decimal cur n.
Proof. intros H1 H2 H3 H4. split; [exact H2|]. split; [exact H1|]. split; [|exact H4]. destruct H3 as [H3|H3]; [contradiction|exact H3]. Qed.
Lemma parse4_spec s : forall cur f pd val dl flds l, reading cur f pd val dl flds s ->
  (parse4 f pd val dl flds s = Some l <-> exists m, dots (cur ++ s) m /\ (length flds + length m = 4)%nat /\ l = flds ++ m).
Proof.
  induction s as [|c s IH]; intros cur f pd val dl flds l HR; pose proof HR as (R1 & R2 & R3 & R4 & R5 & R6 & R7 & R8 & R9); cbn [parse4].
  - rewrite app_nil_r. destruct (length flds <? 3)%nat eqn:E.
    + split; [discriminate|]. intros (m & D & L & _). inversion D as [t n D1 L1 E1 E2|t n u k D1 L1 D2 E1 E2]; subst; cbn in L.
      * lia.
      * exfalso. apply Forall_app in R1. destruct R1 as [_ R1]. inversion R1; lia.
    + assert (HC : cur <> []) by (intros ->; apply (R8 eq_refl); [destruct flds; [discriminate E|discriminate]|reflexivity]).
      split.
      * intros H. injection H as <-. exists [val].
        assert (HD : dots cur [val]) by (apply dt_one; [now apply decimal_cur|exact R5]).
        split; [exact HD|]. split; [cbn; lia|reflexivity].
      * intros (m & D & L & ->). inversion D as [t n D1 L1 E1 E2|t n u k D1 L1 D2 E1 E2]; subst.
        -- destruct D1 as (_ & _ & _ & ->). reflexivity.
        -- exfalso. apply Forall_app in R1. destruct R1 as [_ R1]. inversion R1; lia.
  - unfold is_digit. destruct ((48 <=? c) && (c <=? 57)) eqn:EC.
    + assert (Hc : 48 <= c <= 57) by lia.
      replace (cur ++ c :: s) with ((cur ++ [c]) ++ s) by now rewrite <- app_assoc.
      destruct ((dl =? 1)%nat && (val =? 0)) eqn:EZ; [|destruct (255 <? val * 10 + (c - 48)) eqn:EV].
      * split; [discriminate|]. intros (m & D & _). exfalso.
        assert (HW : digs (cur ++ [c])) by (apply Forall_app; split; [exact R1|constructor; [exact Hc|constructor]]).
        destruct (dots_first _ _ _ HW D) as (t & r & n & -> & (_ & _ & [DH|DH] & _) & _).
        -- destruct cur; [cbn in R3; lia|]. destruct cur; discriminate DH.
        -- destruct R4 as [-> | [-> | R4]]; [cbn in R3; lia|now apply DH|].
           destruct cur as [|x [|y cur]]; cbn in R3; try lia. cbn in R4, R2. inversion R1; subst. lia.
      * split; [discriminate|]. intros (m & D & _). exfalso.
        assert (HW : digs (cur ++ [c])) by (apply Forall_app; split; [exact R1|constructor; [exact Hc|constructor]]).
        destruct (dots_first _ _ _ HW D) as (t & r & n & -> & (_ & _ & _ & DV) & DL).
        pose proof (val10_mono (cur ++ [c]) r) as HM. unfold val10 in HM at 2. rewrite <- DV, val10_snoc in HM. lia.
      * apply IH. apply (reading_digit cur f pd val dl flds c s HR Hc); lia.
    + destruct (c =? c_dot) eqn:ED.
      * apply N.eqb_eq in ED. subst c. change c_dot with 46 in *.
        destruct (f || match s with [] => true | _ => false end || pd) eqn:EB.
        -- split; [discriminate|]. intros (m & D & L & ->). exfalso. destruct (dots_dot _ _ _ R1 D) as (n & m' & -> & D1 & L1 & D2).
           destruct (dots_chars _ _ D2) as [_ HN]. destruct D1 as (HC & _). destruct f; [now apply HC, R6|]. destruct pd; [now apply HC, R7|].
           destruct s; [contradiction|discriminate EB].
        -- destruct (length flds =? 3)%nat eqn:EL.
           ++ split; [discriminate|]. intros (m & D & L & ->). exfalso. destruct (dots_dot _ _ _ R1 D) as (n & m' & -> & D1 & L1 & D2).
              cbn in L. inversion D2; subst; cbn in L; lia.
           ++ assert (HC : cur <> []).
              { intros ->. destruct flds; [destruct f; [discriminate EB|]; discriminate (proj2 R6 (conj eq_refl eq_refl))|].
                destruct pd; [now rewrite !Bool.orb_true_r in EB|]. assert (HX : false = true) by (apply R7; split; [reflexivity|discriminate]). discriminate HX. }
              assert (HS : s <> []) by (destruct s; [now rewrite Bool.orb_true_r in EB|discriminate]).
              assert (HR2 : reading [] false true 0 0 (flds ++ [val]) s).
              { unfold reading. split; [constructor|]. split; [reflexivity|]. split; [reflexivity|]. split; [now left|]. split; [lia|].
                split; [split; [discriminate|intros [_ H]; now destruct flds]|]. split; [split; [intros _; split; [reflexivity|now destruct flds]|reflexivity]|].
                split; [auto|]. rewrite app_length. cbn. lia. }
              rewrite (IH _ _ _ _ _ _ l HR2). cbn [app]. split.
              ** intros (m & D & L & ->). exists (val :: m). split; [apply dt_more; [now apply decimal_cur|exact R5|exact D]|].
                 rewrite app_length in L. cbn in L |- *. split; [lia|]. now rewrite <- app_assoc.
              ** intros (m & D & L & ->). destruct (dots_dot _ _ _ R1 D) as (n & m' & -> & D1 & L1 & D2). exists m'. split; [exact D2|].
                 rewrite app_length. cbn in L |- *. split; [lia|]. rewrite <- app_assoc. destruct D1 as (_ & _ & _ & ->). subst val. reflexivity.
      * split; [discriminate|]. intros (m & D & _). exfalso. destruct (dots_chars _ _ D) as [HF _]. apply Forall_app in HF.
        destruct HF as [_ HF]. inversion HF; subst. change c_dot with 46 in ED. lia.
Qed.
Lemma parse_ipv4_spec s l : parse_ipv4 s = Some l <-> exists a b c d, l = [a; b; c; d] /\ dotted s a b c d.
Proof.
  unfold parse_ipv4. rewrite (parse4_spec s [] true false 0 0 [] l).
  - cbn [app length Nat.add]. split.
    + intros (m & D & L & ->). destruct m as [|a [|b [|c [|d [|e m]]]]]; try discriminate L. exists a, b, c, d. split; [reflexivity|]. now apply dots_four.
    + intros (a & b & c & d & -> & D). exists [a; b; c; d]. split; [now apply dots_four|]. auto.
  - unfold reading. split; [constructor|]. split; [reflexivity|]. split; [reflexivity|]. split; [now left|]. split; [lia|].
    split; [tauto|]. split; [split; [discriminate|intros [_ H]; contradiction]|]. split; [intros _ H; contradiction|cbn; lia].
Qed.

(** * Groups *)
Definition val16 (vs : list N) : N := fold_left (fun a v => 16 * a + v) vs 0.
Lemma hexval_spec c v : hexval c = Some v <-> hexdigit c v.
Proof.
  unfold hexval, is_digit, hexdigit. destruct ((48 <=? c) && (c <=? 57)) eqn:E1; [|destruct ((97 <=? c) && (c <=? 102)) eqn:E2; [|destruct ((65 <=? c) && (c <=? 70)) eqn:E3]].
  - split; [intros H; injection H as <-; left; lia|intros H; f_equal; lia].
  - split; [intros H; injection H as <-; right; left; lia|intros H; f_equal; lia].
  - split; [intros H; injection H as <-; right; right; lia|intros H; f_equal; lia].
  - split; [discriminate|intros H; lia].
Qed.
Lemma hexdigit_lt c v : hexdigit c v -> v < 16.
Proof. unfold hexdigit. lia. Qed.
Lemma hexval_none c : hexval c = None <-> forall v, ~ hexdigit c v.
Proof.
  split.
  - intros H v HV. apply hexval_spec in HV. congruence.
  - intros H. destruct (hexval c) as [v|] eqn:E; [|reflexivity]. apply hexval_spec in E. now apply H in E.
Qed.
Definition stops (r : bytes) : Prop := match r with [] => True | c :: _ => hexval c = None end.
Lemma scan_fwd h : forall vs off acc r, Forall2 hexdigit h vs -> stops r -> (off + length h <= 4)%nat -> acc < 16 ^ N.of_nat off ->
  scan_hex off acc (h ++ r) = Some (fold_left (fun a v => 16 * a + v) vs acc, (off + length h)%nat, r).
Proof.
  induction h as [|c h IH]; intros vs off acc r HF HS HL HA; inversion HF as [|x v y us HX HY]; subst; cbn [app fold_left length].
  - rewrite Nat.add_0_r. destruct r as [|c r]; [reflexivity|]. cbn in HS. cbn [scan_hex]. now rewrite HS.
  - cbn [length] in HL. cbn [scan_hex]. apply hexval_spec in HX. rewrite HX. apply hexval_spec, hexdigit_lt in HX.
    assert (HP : 16 ^ N.of_nat (S off) = 16 * 16 ^ N.of_nat off) by (rewrite Nat2N.inj_succ; apply N.pow_succ_r').
    assert (HB : 16 ^ N.of_nat (S off) <= 16 ^ 4) by (apply N.pow_le_mono_r; lia). change (16 ^ 4) with 65536 in HB.
    destruct (3 <? off)%nat eqn:E; [lia|]. destruct (65535 <? acc * 16 + v) eqn:E2; [lia|].
    rewrite (IH us (S off) (acc * 16 + v) r HY HS); [|lia|lia]. rewrite (N.mul_comm acc 16). do 3 f_equal. lia.
Qed.
Lemma scan_back s : forall off acc a o r, (off <= 4)%nat -> scan_hex off acc s = Some (a, o, r) ->
  exists h vs, s = h ++ r /\ Forall2 hexdigit h vs /\ a = fold_left (fun a v => 16 * a + v) vs acc /\ o = (off + length h)%nat /\ (o <= 4)%nat /\ stops r.
Proof.
  induction s as [|c s IH]; intros off acc a o r HO; cbn [scan_hex].
  - intros H. injection H as <- <- <-. exists [], []. cbn. repeat split; auto.
  - destruct (hexval c) as [d|] eqn:E.
    + destruct (3 <? off)%nat eqn:E1; [discriminate|]. destruct (65535 <? acc * 16 + d); [discriminate|]. intros H.
      destruct (IH (S off) _ a o r ltac:(lia) H) as (h & vs & -> & HF & -> & -> & HL & HS). exists (c :: h), (d :: vs).
      split; [reflexivity|]. split; [constructor; [now apply hexval_spec|exact HF]|]. split; [cbn [fold_left]; now rewrite (N.mul_comm acc 16)|].
      cbn [length]. split; [lia|]. split; [exact HL|exact HS].
    + intros H. injection H as <- <- <-. exists [], []. cbn [app length fold_left stops]. rewrite Nat.add_0_r. auto 8 using Forall2_nil.
Qed.
Lemma scan_group t n r : group t n -> stops r -> scan_hex 0 0 (t ++ r) = Some (n, length t, r).
Proof. intros ([L1 L2] & vs & HF & ->) HS. exact (scan_fwd t vs 0 0 r HF HS L2 ltac:(reflexivity)). Qed.
Lemma group_back s a o r : scan_hex 0 0 s = Some (a, o, r) -> o <> 0%nat -> exists t, s = t ++ r /\ group t a /\ stops r /\ o = length t.
Proof.
  intros H HO. destruct (scan_back s 0 0 a o r ltac:(lia) H) as (h & vs & -> & HF & -> & -> & HL & HS). cbn [Nat.add] in *.
  exists h. split; [reflexivity|]. split; [|auto]. split; [lia|]. exists vs. auto.
Qed.
Lemma group_start t n : group t n -> exists c t', t = c :: t' /\ hexval c <> None.
Proof.
  intros ([L1 L2] & vs & HF & _). destruct t as [|c t]; [cbn in L1; lia|]. exists c, t. split; [reflexivity|]. inversion HF; subst.
  apply hexval_spec in H1. congruence.
Qed.
Lemma digit_hex c : 48 <= c <= 57 -> hexdigit c (c - 48).
Proof. intros H. left. auto. Qed.
Lemma val10_len t n : decimal t n -> n < 256 -> (length t <= 3)%nat.
Proof.
  intros (H1 & H2 & H3 & ->) HL. destruct H3 as [-> | H3]; [cbn; lia|]. destruct t as [|a [|b [|c [|d t]]]]; cbn [length]; try lia. exfalso.
  cbn [hd] in H3. pose proof (val10_mono [a; b; c; d] t) as HM. change ([a; b; c; d] ++ t) with (a :: b :: c :: d :: t) in HM.
  unfold val10 in HM at 2. assert (HA : 1000 <= val10 [a; b; c; d]); [|lia]. inversion H2; subst. unfold val10. cbn [fold_left]. lia.
Qed.
Lemma dotted_scan t a b c d : dotted t a b c d -> exists acc off r, scan_hex 0 0 t = Some (acc, off, 46 :: r) /\ off <> 0%nat.
Proof.
  intros (ta & tb & tc & td & -> & Da & _ & _ & _ & La & _). cbn [app].
  pose proof (val10_len ta a Da La) as HL. destruct Da as (HN & HD & _).
  rewrite (scan_fwd ta (map (fun c => c - 48) ta) 0 0); [|..].
  - eexists _, _, _. split; [reflexivity|]. destruct ta; [contradiction|discriminate].
  - clear - HD. induction HD; constructor; auto. now apply digit_hex.
  - reflexivity.
  - lia.
  - reflexivity.
Qed.
Lemma pieces_start t l : pieces t l -> exists c t', t = c :: t' /\ hexval c <> None.
Proof.
  intros H. destruct H as [t n H|t a b c d H|t n u l H _].
  - now apply (group_start t n).
  - destruct H as (ta & tb & tc & td & -> & (HN & HD & _) & _). destruct ta as [|x ta]; [contradiction|]. exists x. eexists. split; [reflexivity|].
    inversion HD; subst. apply digit_hex, hexval_spec in H1. congruence.
  - destruct (group_start t n H) as (c & t' & -> & HC). exists c. eexists. split; [reflexivity|exact HC].
Qed.
Lemma hexes_pieces t l : hexes t l -> pieces t l.
Proof. intros H. induction H; [now apply pc_one|now apply pc_more]. Qed.
Lemma hex_58 c : hexval c <> None -> (c =? 58) = false.
Proof. intros H. destruct (c =? 58) eqn:E; [|reflexivity]. apply N.eqb_eq in E. subst c. now contradiction H. Qed.

(** * The loop, when the texts are right *)
Lemma loop_pieces t l : pieces t l -> forall fuel gs ell, (length l <= fuel)%nat -> (length gs + fuel = 8)%nat ->
  (ell = None -> (length gs + length l = 8)%nat) -> parse6_loop fuel gs ell t = Some (gs ++ l, ell, []).
Proof.
  intros H. induction H as [t n H|t a b c d H|t n u l H H2 IH]; intros fuel gs ell HF HG HE.
  - destruct fuel as [|f]; [cbn in HF; lia|]. cbn [parse6_loop]. replace t with (t ++ []) at 1 by apply app_nil_r. rewrite (scan_group t n [] H I).
    destruct H as ([L1 _] & _). destruct (length t =? 0)%nat eqn:E; [lia|]. reflexivity.
  - destruct fuel as [|f]; [cbn in HF; lia|]. cbn [parse6_loop]. destruct (dotted_scan t a b c d H) as (acc & off & r & -> & HO).
    destruct (off =? 0)%nat eqn:E; [lia|]. change (46 =? c_dot) with true. cbn iota. cbn [length] in HF, HE.
    assert (E1 : match ell with None => negb (length gs =? 6)%nat | Some _ => false end = false).
    { destruct ell; [reflexivity|]. specialize (HE eq_refl). lia. }
    rewrite E1. destruct (8 <? length gs + 2)%nat eqn:E2; [lia|].
    assert (E3 : parse_ipv4 t = Some [a; b; c; d]) by (apply parse_ipv4_spec; exists a, b, c, d; auto).
    rewrite E3. now rewrite (N.mul_comm a), (N.mul_comm c).
  - destruct fuel as [|f]; [cbn in HF; lia|]. cbn [parse6_loop app]. rewrite (scan_group t n (58 :: u) H); [|reflexivity].
    destruct H as ([L1 _] & _). destruct (length t =? 0)%nat eqn:E; [lia|]. change (58 =? c_dot) with false. change (negb (58 =? c_colon)) with false. cbn iota.
    destruct (pieces_start u l H2) as (c & u' & -> & HC). change c_colon with 58. rewrite (hex_58 c HC). cbn [length] in HF, HE.
    rewrite (IH f (gs ++ [n]) ell); [|lia|rewrite app_length; cbn; lia|].
    + now rewrite <- app_assoc.
    + intros HH. specialize (HE HH). rewrite app_length. cbn. lia.
Qed.
Lemma loop_ellipsis t1 l1 t2 l2 : hexes t1 l1 -> (t2 = [] /\ l2 = [] \/ pieces t2 l2) ->
  forall fuel gs, (length l1 + length l2 <= fuel)%nat -> (length gs + fuel = 8)%nat ->
  parse6_loop fuel gs None (t1 ++ [58; 58] ++ t2) = Some (gs ++ l1 ++ l2, Some (length gs + length l1)%nat, []).
Proof.
  intros H H2. induction H as [t n H|t n u l H Hu IH]; intros fuel gs HF HG.
  - destruct fuel as [|f]; [cbn in HF; lia|]. cbn [parse6_loop app]. rewrite (scan_group t n _ H); [|reflexivity].
    destruct H as ([L1 _] & _). destruct (length t =? 0)%nat eqn:E; [lia|]. change (58 =? c_dot) with false. change (58 =? c_colon) with true. cbn [negb]. cbn iota.
    destruct H2 as [[-> ->]|H2]; [reflexivity|]. destruct (pieces_start t2 l2 H2) as (c & t' & -> & _). cbn [length app] in *.
    rewrite (loop_pieces _ l2 H2 f (gs ++ [n])); [now rewrite <- app_assoc|lia|rewrite app_length; cbn; lia|discriminate].
  - destruct fuel as [|f]; [cbn in HF; lia|]. rewrite <- !app_assoc. cbn [parse6_loop app]. rewrite (scan_group t n _ H); [|reflexivity].
    destruct H as ([L1 _] & _). destruct (length t =? 0)%nat eqn:E; [lia|]. change (58 =? c_dot) with false. change (58 =? c_colon) with true. cbn [negb]. cbn iota.
    destruct (pieces_start u l (hexes_pieces u l Hu)) as (c & u' & -> & HC). cbn [app]. change c_colon with 58. rewrite (hex_58 c HC).
    change (c :: u' ++ 58 :: 58 :: t2) with ((c :: u') ++ [58; 58] ++ t2). cbn [length] in HF.
    rewrite (IH f (gs ++ [n])); [|lia|rewrite app_length; cbn; lia]. rewrite <- app_assoc, app_length. cbn [app length]. now replace (length gs + 1 + length l)%nat with (length gs + S (length l))%nat by lia.
Qed.

(** * The loop, when it succeeds *)
Lemma loop_back fuel : forall gs ell s gs' ell', s <> [] -> (length gs + fuel = 8)%nat ->
  parse6_loop fuel gs ell s = Some (gs', ell', []) ->
  (exists l, pieces s l /\ gs' = gs ++ l /\ ell' = ell /\ (length gs' <= 8)%nat) \/
  (ell = None /\ exists t1 l1 t2 l2, s = t1 ++ [58; 58] ++ t2 /\ hexes t1 l1 /\ (t2 = [] /\ l2 = [] \/ pieces t2 l2) /\
     gs' = gs ++ l1 ++ l2 /\ ell' = Some (length gs + length l1)%nat /\ (length gs' <= 8)%nat).
Proof.
  induction fuel as [|f IH]; intros gs ell s gs' ell' HS HG H; cbn [parse6_loop] in H.
  - injection H as _ _ H. contradiction.
  - destruct (scan_hex 0 0 s) as [[[acc off] r]|] eqn:ES; [|discriminate H].
    destruct (off =? 0)%nat eqn:EO; [discriminate H|]. destruct (group_back s acc off r ES ltac:(lia)) as (t & -> & HGr & HSt & ->).
    destruct r as [|c r'].
    + injection H as <- <-. left. exists [acc]. rewrite app_nil_r. split; [now apply pc_one|]. rewrite app_length. cbn. repeat split; auto. lia.
    + destruct (c =? c_dot) eqn:ED.
      * destruct (match ell with None => _ | Some _ => _ end); [discriminate H|]. destruct (8 <? length gs + 2)%nat eqn:EL; [discriminate H|].
        destruct (parse_ipv4 (t ++ c :: r')) as [l4|] eqn:E4; [|discriminate H]. apply parse_ipv4_spec in E4. destruct E4 as (a & b & c' & d & -> & HD).
        injection H as <- <-. left. exists [256 * a + b; 256 * c' + d]. split; [now apply pc_dotted|].
        split; [now rewrite (N.mul_comm 256 a), (N.mul_comm 256 c')|]. split; [reflexivity|]. rewrite app_length. cbn. lia.
      * destruct (negb (c =? c_colon)) eqn:EC; [discriminate H|]. assert (c = 58) by (change c_colon with 58 in EC; lia). subst c.
        destruct r' as [|c2 r'']; [discriminate H|]. destruct (c2 =? c_colon) eqn:E2.
        -- apply N.eqb_eq in E2. change c_colon with 58 in E2. subst c2. destruct ell as [e|]; [discriminate H|].
           right. split; [reflexivity|]. destruct r'' as [|x r''].
           ++ injection H as <- <-. exists t, [acc], [], []. split; [reflexivity|]. split; [now apply hx_one|]. split; [now left|].
              rewrite app_length. cbn. split; [reflexivity|]. split; [reflexivity|lia].
           ++ destruct (IH (gs ++ [acc]) _ (x :: r'') gs' ell' ltac:(discriminate) ltac:(rewrite app_length; cbn; lia) H) as
                [(l & HP & -> & -> & HL)|(HX & _)]; [|discriminate HX].
              exists t, [acc], (x :: r''), l. split; [reflexivity|]. split; [now apply hx_one|]. split; [now right|].
              rewrite <- app_assoc in *. auto.
        -- destruct (IH (gs ++ [acc]) ell (c2 :: r'') gs' ell' ltac:(discriminate) ltac:(rewrite app_length; cbn; lia) H) as
             [(l & HP & -> & -> & HL)|(-> & t1 & l1 & t2 & l2 & HE & HX & HT & -> & -> & HL)].
           ++ left. exists (acc :: l). split; [now apply (pc_more t)|]. rewrite <- app_assoc in *. auto.
           ++ right. split; [reflexivity|]. exists (t ++ [58] ++ t1), (acc :: l1), t2, l2. split; [rewrite HE, <- !app_assoc; reflexivity|].
              split; [now apply hx_more|]. split; [exact HT|]. rewrite <- app_assoc in *. split; [reflexivity|]. split; [|exact HL].
              rewrite app_length. cbn [length]. f_equal. lia.
Qed.

(** * Whole addresses *)
Definition valg (gs : list N) : N := fold_left (fun x g => 65536 * x + g) gs 0.
Lemma undig_valg gs : undig 65536 gs = valg gs.
Proof.
  unfold undig, valg. generalize 0. induction gs as [|g gs IH]; intros x; [reflexivity|]. cbn [fold_left]. rewrite (N.mul_comm x). apply IH.
Qed.
Definition achar (c : N) : Prop := hexval c <> None \/ c = 46 \/ c = 58.
Lemma digs_achar t : digs t -> Forall achar t.
Proof. intros H. eapply Forall_impl; [|exact H]. intros c Hc. left. cbn in Hc. apply digit_hex, hexval_spec in Hc. congruence. Qed.
Lemma group_achar t n : group t n -> Forall achar t.
Proof.
  intros (_ & vs & HF & _). induction HF as [|c v t vs H HF IH]; constructor; auto. left. apply hexval_spec in H. congruence.
Qed.
Lemma dotted_achar t a b c d : dotted t a b c d -> Forall achar t.
Proof.
  intros (ta & tb & tc & td & -> & (_ & Da & _) & (_ & Db & _) & (_ & Dc & _) & (_ & Dd & _) & _).
  assert (H46 : achar 46) by (right; now left). cbn [app].
  apply Forall_app. split; [now apply digs_achar|]. constructor; [exact H46|].
  apply Forall_app. split; [now apply digs_achar|]. constructor; [exact H46|].
  apply Forall_app. split; [now apply digs_achar|]. constructor; [exact H46|now apply digs_achar].
Qed.
Lemma pieces_achar t l : pieces t l -> Forall achar t.
Proof.
  intros H. induction H as [t n H|t a b c d H|t n u l H _ IH].
  - now apply (group_achar t n).
  - now apply (dotted_achar t a b c d).
  - apply Forall_app. split; [now apply (group_achar t n)|]. constructor; [right; now right|exact IH].
Qed.
Lemma achar_pct t : Forall achar t -> existsb (N.eqb c_pct) t = false.
Proof.
  intros H. induction H as [|c t [H|[-> | ->]] _ IH]; cbn [existsb]; rewrite ?IH; try reflexivity.
  destruct (c_pct =? c) eqn:E; [|reflexivity]. apply N.eqb_eq in E. subst c. now contradiction H.
Qed.
Lemma finish_full gs : length gs = 8%nat -> finish6 (Some (gs, None, [])) = Some (A6 (valg gs)).
Proof. intros H. unfold finish6. rewrite H. cbn [Nat.ltb Nat.leb]. now rewrite undig_valg. Qed.
Lemma finish_ellipsis l1 l2 k : length (l1 ++ repeat 0 k ++ l2) = 8%nat -> (1 <= k)%nat ->
  finish6 (Some (l1 ++ l2, Some (length l1), [])) = Some (A6 (valg (l1 ++ repeat 0 k ++ l2))).
Proof.
  intros H HK. rewrite !app_length, repeat_length in H. unfold finish6. rewrite app_length. destruct (length l1 + length l2 <? 8)%nat eqn:E; [|lia].
  rewrite firstn_app, skipn_app, firstn_all, skipn_all, Nat.sub_diag, firstn_O, app_nil_r, skipn_O. cbn [app].
  replace (8 - (length l1 + length l2))%nat with k by lia. now rewrite undig_valg.
Qed.
Lemma parse_ipv6_fwd t gs : grouped t gs -> parse_ipv6 t = Some (A6 (valg gs)).
Proof.
  intros [[HP HL]|(t1 & l1 & t2 & l2 & k & -> & -> & HL & HK & H1 & H2)].
  - unfold parse_ipv6. rewrite (achar_pct t (pieces_achar t gs HP)). destruct (pieces_start t gs HP) as (c & t' & -> & HC).
    assert (E : match c :: t' with a :: b :: _ => (a =? c_colon) && (b =? c_colon) | _ => false end = false).
    { destruct t'; [reflexivity|]. change c_colon with 58. now rewrite (hex_58 c HC). }
    rewrite E, (loop_pieces _ gs HP 8 [] None); [now apply finish_full|lia|reflexivity|auto].
  - assert (A2 : Forall achar t2) by (destruct H2 as [[-> _]|H2]; [constructor|now apply (pieces_achar t2 l2)]).
    assert (A0 : Forall achar (t1 ++ [58; 58] ++ t2)).
    { apply Forall_app. split; [destruct H1 as [[-> _]|H1]; [constructor|exact (pieces_achar t1 l1 (hexes_pieces t1 l1 H1))]|].
      constructor; [right; now right|]. constructor; [right; now right|exact A2]. }
    unfold parse_ipv6. rewrite (achar_pct _ A0). pose proof HL as HL'. rewrite !app_length, repeat_length in HL'. destruct H1 as [[-> ->]|H1].
    + cbn [app length] in *. change ((58 =? c_colon) && (58 =? c_colon)) with true. cbn iota. cbn [skipn]. destruct H2 as [[-> ->]|H2].
      * cbn [length] in HL'. replace k with 8%nat by lia. reflexivity.
      * destruct (pieces_start t2 l2 H2) as (c & t' & -> & HC).
        rewrite (loop_pieces _ l2 H2 8 [] (Some 0%nat)); [exact (finish_ellipsis [] l2 k HL HK)|lia|reflexivity|discriminate].
    + destruct (pieces_start t1 l1 (hexes_pieces t1 l1 H1)) as (c & t' & -> & HC).
      assert (E : match (c :: t') ++ [58; 58] ++ t2 with a :: b :: _ => (a =? c_colon) && (b =? c_colon) | _ => false end = false).
      { cbn [app]. change c_colon with 58. rewrite (hex_58 c HC). now destruct t'. }
      rewrite E, (loop_ellipsis _ l1 t2 l2 H1 H2 8 []); [|lia|reflexivity]. cbn [app length Nat.add]. now apply finish_ellipsis.
Qed.
Lemma parse_ipv6_back s a : parse_ipv6 s = Some a -> exists gs, grouped s gs /\ a = A6 (valg gs).
Proof.
  unfold parse_ipv6. destruct (existsb (N.eqb c_pct) s); [discriminate|].
  destruct (match s with x :: y :: _ => (x =? c_colon) && (y =? c_colon) | _ => false end) eqn:E.
  - destruct s as [|x [|y s]]; try discriminate E. apply andb_true_iff in E. destruct E as [E1 E2]. apply N.eqb_eq in E1, E2. subst x y.
    change c_colon with 58 in *. cbn [skipn]. destruct s as [|c s].
    + intros H. injection H as <-. exists (repeat 0 8). split; [|reflexivity]. right. exists [], [], [], [], 8%nat. cbn. repeat split; auto; lia.
    + intros H. destruct (parse6_loop 8 [] (Some 0%nat) (c :: s)) as [[[gs ell] r]|] eqn:EL; [|discriminate H].
      destruct r as [|r0 r]; [|discriminate H].
      destruct (loop_back 8 [] (Some 0%nat) (c :: s) gs ell ltac:(discriminate) eq_refl EL) as [(l & HP & -> & -> & HL)|(HX & _)]; [|discriminate HX].
      cbn [app finish6 firstn skipn] in *. destruct (length l <? 8)%nat eqn:E8; [|discriminate H]. injection H as <-.
      exists (repeat 0 (8 - length l) ++ l). split; [|now rewrite undig_valg]. right.
      exists [], [], (c :: s), l, (8 - length l)%nat. split; [reflexivity|]. split; [reflexivity|].
      split; [rewrite app_length, repeat_length; lia|]. split; [lia|]. split; [now left|now right].
  - intros H. assert (HS : s <> []) by (intros ->; discriminate H).
    destruct (parse6_loop 8 [] None s) as [[[gs ell] r]|] eqn:EL; [|discriminate H]. destruct r as [|r0 r]; [|discriminate H].
    destruct (loop_back 8 [] None s gs ell HS eq_refl EL) as [(l & HP & -> & -> & HL)|(_ & t1 & l1 & t2 & l2 & -> & H1 & H2 & -> & -> & HL)].
    + cbn [app finish6] in *. destruct (length l <? 8)%nat eqn:E8; [discriminate H|]. injection H as <-. exists l. split; [left; split; [exact HP|lia]|].
      now rewrite undig_valg.
    + cbn [app length Nat.add] in *. destruct (length (l1 ++ l2) <? 8)%nat eqn:E8; [|cbn [finish6] in H; rewrite E8 in H; discriminate H].
      assert (E9 : length (l1 ++ repeat 0 (8 - length (l1 ++ l2)) ++ l2) = 8%nat) by (rewrite !app_length, repeat_length in *; lia).
      pose proof (eq_trans (eq_sym H) (finish_ellipsis l1 l2 _ E9 ltac:(lia))) as HF. injection HF as ->. eexists. split; [|reflexivity]. right.
      exists t1, l1, t2, l2, (8 - length (l1 ++ l2))%nat. split; [reflexivity|]. split; [reflexivity|]. split; [exact E9|]. split; [apply Nat.ltb_lt in E8; lia|]. split; [now right|exact H2].
Qed.
Lemma kind_skip l r : Forall (fun c => hexval c <> None) l -> addr_kind (l ++ r) = addr_kind r.
Proof.
  intros H. induction H as [|c l H _ IH]; [reflexivity|]. cbn [app addr_kind].
  destruct ((c =? c_dot) || (c =? c_colon) || (c =? c_pct)) eqn:E; [|exact IH]. exfalso. apply H.
  rewrite !Bool.orb_true_iff, !N.eqb_eq in E. destruct E as [[-> | ->] | ->]; reflexivity.
Qed.
Lemma group_hex t n : group t n -> Forall (fun c => hexval c <> None) t.
Proof. intros (_ & vs & HF & _). induction HF as [|c v t vs H HF IH]; constructor; auto. apply hexval_spec in H. congruence. Qed.
Lemma digs_hex t : digs t -> Forall (fun c => hexval c <> None) t.
Proof. intros H. eapply Forall_impl; [|exact H]. intros c Hc. cbn in Hc. apply digit_hex, hexval_spec in Hc. congruence. Qed.
Lemma kind_dotted t a b c d : dotted t a b c d -> addr_kind t = c_dot.
Proof. intros (ta & tb & tc & td & -> & (_ & Da & _) & _). rewrite (kind_skip ta _ (digs_hex ta Da)). reflexivity. Qed.
Lemma kind_hexes t l r : hexes t l -> addr_kind (t ++ 58 :: r) = c_colon.
Proof.
  intros H. destruct H as [t n H|t n u l H _]; [|rewrite <- app_assoc]; rewrite (kind_skip t _ (group_hex t n H)); reflexivity.
Qed.
Lemma kind_grouped t gs : grouped t gs -> addr_kind t = c_colon.
Proof.
  intros [[HP HL]|(t1 & l1 & t2 & l2 & k & -> & _ & _ & _ & H1 & _)].
  - destruct HP as [t n H|t a b c d H|t n u l H _]; [discriminate HL|discriminate HL|]. rewrite (kind_skip t _ (group_hex t n H)). reflexivity.
  - destruct H1 as [[-> _]|H1]; [reflexivity|]. now apply (kind_hexes t1 l1).
Qed.
Lemma unbe_four a b c d : unbe [a; b; c; d] = 256 * (256 * (256 * a + b) + c) + d.
Proof. cbn [unbe fold_left]. unfold unbe. cbn [fold_left]. lia. Qed.
Lemma parse_addr_spec s a : parse_addr s = Some a <-> addr_text s a.
Proof.
  split.
  - unfold parse_addr. cbv zeta. destruct (addr_kind s =? c_dot).
    + destruct (parse_ipv4 s) as [l|] eqn:E; [|discriminate]. apply parse_ipv4_spec in E. destruct E as (x & y & z & w & -> & HD).
      intros H. injection H as <-. rewrite unbe_four. now apply at_v4.
    + destruct (addr_kind s =? c_colon); [|discriminate]. intros H. destruct (parse_ipv6_back s a H) as (gs & HG & ->). now apply at_v6.
  - intros H. destruct H as [t x y z w H|t gs H]; unfold parse_addr; cbv zeta.
    + rewrite (kind_dotted t x y z w H). change (c_dot =? c_dot) with true. cbn iota.
      assert (E : parse_ipv4 t = Some [x; y; z; w]) by (apply parse_ipv4_spec; exists x, y, z, w; auto). now rewrite E, unbe_four.
    + rewrite (kind_grouped t gs H). change (c_colon =? c_dot) with false. change (c_colon =? c_colon) with true. cbn iota. now apply parse_ipv6_fwd.
Qed.
Lemma lead_spec u n : undec 0 u = Some n ->
  (match u with [] => false | [_] => true | c :: _ => (49 <=? c) && (c <=? 57) end = true <-> decimal u n).
Proof.
  intros H. apply undec_spec in H. destruct H as [HD HV]. split.
  - intros HL. destruct u as [|c [|c2 u]]; [discriminate HL|..].
    + split; [discriminate|]. split; [exact HD|]. split; [|exact HV]. cbn [hd]. destruct (N.eq_dec c 48) as [->|]; auto.
    + split; [discriminate|]. split; [exact HD|]. split; [|exact HV]. right. cbn [hd]. lia.
  - intros (HN & _ & HH & _). destruct u as [|c [|c2 u]]; [contradiction|reflexivity|]. inversion HD; subst. destruct HH as [HH|HH]; [discriminate HH|].
    cbn [hd] in HH. lia.
Qed.
Lemma parse_prefix_spec s p : parse_prefix s = Some p <-> prefix_text s p.
Proof.
  unfold parse_prefix. split.
  - destruct (split_last c_slash s) as [[ip u]|] eqn:ES; [|discriminate]. apply split_last_some in ES. destruct ES as [-> _].
    destruct (parse_addr ip) as [a|] eqn:EA; [|discriminate]. apply parse_addr_spec in EA. cbv zeta.
    destruct (match u with [] => false | [_] => true | c :: _ => (49 <=? c) && (c <=? 57) end) eqn:EL; [|discriminate]. cbn [negb].
    destruct (undec 0 u) as [b|] eqn:EU; [|discriminate]. destruct (bitlen a <? b) eqn:EB; [discriminate|]. intros H. injection H as <-.
    exists ip, u, b. split; [reflexivity|]. cbn [p_addr p_bits]. split; [exact EA|]. split; [now apply (lead_spec u b EU)|]. split; [|reflexivity].
    destruct EA; cbn [bitlen] in EB; lia.
  - intros (t & u & n & -> & HA & HD & HL & HB). pose proof HD as (_ & HG & _ & HV).
    assert (HN : ~ In 47 u) by (apply digs_no; [exact HG|lia]). cbn [app]. change 47 with c_slash in *. rewrite (split_last_app c_slash t u HN).
    apply parse_addr_spec in HA. rewrite HA. cbv zeta.
    assert (EU : undec 0 u = Some n) by (apply undec_spec; auto). rewrite (proj2 (lead_spec u n EU) HD). cbn [negb]. rewrite EU.
    assert (EB : (bitlen (p_addr p) <? n) = false) by (destruct (p_addr p); cbn [bitlen]; try contradiction; lia). rewrite EB. destruct p as [pa pb].
    cbn [p_addr p_bits] in *. now rewrite HB.
Qed.
