(** Proofs about numbers and port lists on the command line (C51, C52). *)
From Coq Require Import String.
From Verif Require Import Tac SpecCli ModuleIdProofs ModuleIdProps ConfigProofs.
From Coq Require Import Lia.
Import ListNotations.
Open Scope N_scope.

(** ** Numbers *)
Lemma digit_ok radix c d : radix <= 36 -> (to_digit radix c = Some d <-> digit c d /\ d < radix).
Proof.
  intros Hr. unfold to_digit, digit.
  destruct ((48 <=? c) && (c <=? 57)) eqn:E1.
  { destruct (c - 48 <? radix) eqn:E; split; [intros [= <-]|intros [H1 H2]; f_equal|discriminate|]; lia. }
  destruct ((97 <=? c) && (c <=? 122)) eqn:E2.
  { destruct (c - 97 + 10 <? radix) eqn:E; split; [intros [= <-]|intros [H1 H2]; f_equal|discriminate|]; lia. }
  destruct ((65 <=? c) && (c <=? 90)) eqn:E3.
  { destruct (c - 65 + 10 <? radix) eqn:E; split; [intros [= <-]|intros [H1 H2]; f_equal|discriminate|]; lia. }
  split; [discriminate|]. lia.
Qed.
Lemma fold_grows radix ds : 1 <= radix -> forall acc, acc <= fold_left (fun a d => a * radix + d) ds acc.
Proof.
  intros Hr. induction ds as [|d ds IH]; intros acc; cbn; [lia|]. etransitivity; [|apply IH]. nia.
Qed.
Lemma parse_digits_ok radix max s : 1 <= radix <= 36 -> forall acc v, acc <= max ->
  (parse_digits radix max acc s = Some v <->
   exists ds, Forall (fun d => d < radix) ds /\ Forall2 digit s ds /\
     v = fold_left (fun a d => a * radix + d) ds acc /\ v <= max).
Proof.
  intros Hr. induction s as [|c s IH]; intros acc v Ha; cbn [parse_digits].
  - split.
    + intros [= <-]. exists []. repeat split; try constructor. exact Ha.
    + intros (ds & _ & H & -> & _). inversion H. reflexivity.
  - destruct (to_digit radix c) as [d|] eqn:E.
    + apply digit_ok in E; [|lia]. destruct E as [E1 E2]. cbv zeta. destruct (max <? acc * radix + d) eqn:Em.
      * split; [discriminate|]. intros (ds & F & H & -> & L). inversion H as [|? d' ? ds' Hd Hs]; subst.
        assert (d' = d) as -> by (unfold digit in *; lia). cbn in L. pose proof (fold_grows radix ds' ltac:(lia) (acc * radix + d)). lia.
      * rewrite IH by lia. split.
        -- intros (ds & F & H & -> & L). exists (d :: ds). repeat split; try (constructor; assumption). exact L.
        -- intros (ds & F & H & -> & L). inversion H as [|? d' ? ds' Hd Hs]; subst.
           assert (d' = d) as -> by (unfold digit in *; lia). apply Forall_inv_tail in F. exists ds'. auto.
    + split; [discriminate|]. intros (ds & F & H & _). inversion H as [|? d ? ds' Hd Hs]; subst.
      apply Forall_inv in F. assert (to_digit radix c = Some d) by (apply digit_ok; [lia|auto]). congruence.
Qed.
Lemma parse_numeral radix s v : 1 <= radix <= 36 ->
  (s <> [] /\ parse_digits radix 255 0 s = Some v <-> numeral radix s v /\ v < 256).
Proof.
  intros Hr. rewrite parse_digits_ok by lia. unfold numeral. split.
  - intros (Hs & ds & F & H & E & L). split; [|lia]. exists ds. repeat split; try assumption.
    intros ->. inversion H. congruence.
  - intros ((ds & Hn & F & H & E) & L). split; [intros ->; inversion H; congruence|]. exists ds. repeat split; try assumption. lia.
Qed.
Lemma numeral_head radix c s v : numeral radix (c :: s) v -> exists d, digit c d.
Proof. intros (ds & _ & _ & H & _). inversion H; eauto. Qed.
Lemma parse_number radix s v : 1 <= radix <= 36 -> (parse_u8 radix s = Some v <-> number radix s v).
Proof.
  intros Hr. unfold parse_u8, from_str_radix, number. destruct s as [|c [|c2 r]].
  - split; [discriminate|]. intros (_ & [(ds & Hn & _ & H & _)|(r & [=] & _)]). inversion H. congruence.
  - destruct ((c =? 43) || (c =? 45)) eqn:E.
    + split; [discriminate|]. intros (_ & [H|(r & [= -> <-] & (ds & Hn & _ & H & _))]).
      * apply numeral_head in H. destruct H as [d H]. unfold digit in H. lia.
      * inversion H. congruence.
    + pose proof (parse_numeral radix [c] v Hr) as P. split.
      * intros H. assert (P0 : [c] <> []) by discriminate. destruct (proj1 P (conj P0 H)) as [P1 P2]. auto.
      * intros (L & [H|(r & [= -> <-] & _)]); [|lia]. now apply P.
  - destruct (c =? 43) eqn:E.
    + assert (c = 43) as -> by lia. pose proof (parse_numeral radix (c2 :: r) v Hr) as P. split.
      * intros H. assert (P0 : (c2 :: r) <> []) by discriminate. destruct (proj1 P (conj P0 H)) as [P1 P2]. split; [exact P2|]. right. eauto.
      * intros (L & [H|(r' & [= <-] & H)]); [|now apply P].
        apply numeral_head in H. destruct H as [d H]. unfold digit in H. lia.
    + pose proof (parse_numeral radix (c :: c2 :: r) v Hr) as P. split.
      * intros H. assert (P0 : (c :: c2 :: r) <> []) by discriminate. destruct (proj1 P (conj P0 H)) as [P1 P2]. auto.
      * intros (L & [H|(r' & [= -> _] & _)]); [now apply P|lia].
Qed.
Lemma number_chars radix s v : number radix s v -> Forall (fun c => c = 43 \/ exists d, digit c d /\ d < radix) s.
Proof.
  assert (N : forall s, numeral radix s v -> Forall (fun c => c = 43 \/ exists d, digit c d /\ d < radix) s).
  { intros t (ds & _ & F & H & _). induction H; constructor.
    - right. eexists. split; [eassumption|]. now apply Forall_inv in F.
    - apply IHForall2. now apply Forall_inv_tail in F. }
  intros (_ & [H|(r & -> & H)]); [now apply N|]. constructor; [now left|now apply N].
Qed.
Lemma number_nonempty radix s v : number radix s v -> s <> [].
Proof. intros (_ & [(ds & Hn & _ & H & _)|(r & -> & _)]); [|discriminate]. intros ->. inversion H. congruence. Qed.

(** ** Blanks *)
Definition solid (s : text) : Prop := Forall (fun c => is_whitespace c = false) s.
Lemma number_solid s v : number 10 s v -> solid s.
Proof.
  intros H. apply number_chars in H. eapply Forall_impl; [|exact H]. cbv beta. intros c [->|(d & Hd & L)]; [reflexivity|].
  unfold digit in Hd. unfold is_whitespace. lia.
Qed.
Lemma number_no45 s v : number 10 s v -> ~ In 45 s.
Proof.
  intros H. apply number_chars in H. rewrite Forall_forall in H. intros I. apply H in I.
  destruct I as [I|(d & Hd & L)]; [lia|]. unfold digit in Hd. lia.
Qed.
Lemma trim_start_split s : exists a, white a /\ s = a ++ trim_start s /\
  forall c r, trim_start s = c :: r -> is_whitespace c = false.
Proof.
  induction s as [|c s (a & Ha & E & N)]; [exists []; repeat split; [constructor|discriminate]|].
  cbn [trim_start]. destruct (is_whitespace c) eqn:Ec.
  - exists (c :: a). split; [now constructor|]. split; [cbn; now f_equal|exact N].
  - exists []. split; [constructor|]. split; [reflexivity|]. now intros ? ? [= <- <-].
Qed.
Lemma trim_start_white a s : white a -> trim_start (a ++ s) = trim_start s.
Proof. induction 1 as [|c a Hc _ IH]; [reflexivity|]. cbn. now rewrite Hc. Qed.
Lemma trim_start_solid c s : is_whitespace c = false -> trim_start (c :: s) = c :: s.
Proof. intros H. cbn. now rewrite H. Qed.
Lemma white_rev a : white a -> white (rev a).
Proof. intros H. apply Forall_rev, H. Qed.
Lemma trim_split s : exists a b, white a /\ white b /\ s = a ++ trim s ++ b.
Proof.
  unfold trim, trim_end. destruct (trim_start_split s) as (a & Ha & E & _).
  destruct (trim_start_split (rev (trim_start s))) as (b & Hb & E2 & _).
  exists a, (rev b). split; [exact Ha|]. split; [now apply white_rev|]. rewrite E at 1. f_equal.
  rewrite <- rev_app_distr, <- E2. symmetry. apply rev_involutive.
Qed.
(** Trimming text that starts and ends with other characters. *)
Lemma trim_core a b c s : white a -> white b -> is_whitespace c = false -> (forall v x, c :: s = v ++ [x] -> is_whitespace x = false) ->
  trim (a ++ (c :: s) ++ b) = c :: s.
Proof.
  intros Ha Hb Hc Hl. unfold trim, trim_end. rewrite trim_start_white by exact Ha.
  cbn [app]. rewrite trim_start_solid by exact Hc. change (c :: s ++ b) with ((c :: s) ++ b).
  rewrite rev_app_distr, trim_start_white by now apply white_rev.
  destruct (exists_last (l := c :: s) ltac:(discriminate)) as (v & x & E). rewrite E, rev_app_distr.
  cbn [rev app]. rewrite trim_start_solid by (eapply Hl; exact E). cbn [rev]. now rewrite rev_involutive.
Qed.
Lemma solid_last s v x : solid s -> s = v ++ [x] -> is_whitespace x = false.
Proof. intros H ->. apply Forall_app in H. destruct H as [_ H]. now apply Forall_inv in H. Qed.
Lemma trim_solid a b s : white a -> white b -> solid s -> s <> [] -> trim (a ++ s ++ b) = s.
Proof.
  intros Ha Hb Hs Hn. destruct s as [|c s]; [congruence|]. apply trim_core; auto.
  - now apply Forall_inv in Hs.
  - intros v x E. now apply solid_last with (c :: s) v.
Qed.

(** ** Splitting *)
Lemma split_once_ok c s : forall x y, split_once c s = Some (x, y) <-> s = x ++ c :: y /\ ~ In c x.
Proof.
  induction s as [|d s IH]; intros x y; cbn [split_once].
  - split; [discriminate|]. intros [H _]. now destruct x.
  - destruct (N.eqb_spec d c) as [->|Hd].
    + split; [intros [= <- <-]; split; [reflexivity|intros []]|]. intros [H N]. destruct x as [|d x]; [now injection H as ->|].
      injection H as -> _. exfalso. apply N. now left.
    + destruct (split_once c s) as [[a b]|] eqn:E.
      * split.
        -- intros [= <- <-]. destruct (proj1 (IH a b) eq_refl) as [-> N]. split; [reflexivity|]. intros [I|I]; [congruence|auto].
        -- intros [H N]. destruct x as [|d' x]; injection H as -> H; [congruence|].
           assert (Some (a, b) = Some (x, y)) as [= -> ->]; [|reflexivity]. apply IH. split; [exact H|]. intros I. apply N. now right.
      * split; [discriminate|]. intros [H N]. destruct x as [|d' x]; injection H as -> H; [congruence|].
        assert (None = Some (x, y)) as [=]. apply IH. split; [exact H|]. intros I. apply N. now right.
Qed.
Lemma split_join c s : join [c] (split_on c s) = s /\ split_on c s <> [] /\ Forall (fun p => ~ In c p) (split_on c s).
Proof.
  induction s as [|x s (IH & Hn & Hf)]; cbn [split_on].
  - split; [reflexivity|]. split; [discriminate|]. repeat constructor. intros [].
  - destruct (N.eqb_spec x c) as [->|Hx].
    + split; [|split; [discriminate|constructor; [intros []|exact Hf]]].
      destruct (split_on c s) as [|p ps]; [congruence|]. cbn [join app] in *. now rewrite IH.
    + destruct (split_on c s) as [|p ps]; [congruence|]. split; [|split; [discriminate|]].
      * cbn [join] in *. destruct ps; cbn [app] in *; now rewrite IH.
      * constructor; [|now apply Forall_inv_tail in Hf]. apply Forall_inv in Hf. intros [I|I]; [congruence|auto].
Qed.
Lemma split_app c a s : ~ In c a -> split_on c (a ++ c :: s) = a :: split_on c s.
Proof.
  induction a as [|x a IH]; intros H; cbn [app split_on].
  - now rewrite N.eqb_refl.
  - destruct (N.eqb_spec x c) as [->|]; [exfalso; apply H; now left|]. rewrite IH; [reflexivity|]. intros I. apply H. now right.
Qed.
Lemma split_none c a : ~ In c a -> split_on c a = [a].
Proof.
  induction a as [|x a IH]; intros H; [reflexivity|]. cbn [split_on].
  destruct (N.eqb_spec x c) as [->|]; [exfalso; apply H; now left|]. rewrite IH; [reflexivity|]. intros I. apply H. now right.
Qed.
Lemma join_split c ps : ps <> [] -> Forall (fun p => ~ In c p) ps -> split_on c (join [c] ps) = ps.
Proof.
  intros Hn Hf. induction ps as [|p ps IH]; [congruence|]. cbn [join]. destruct ps as [|q ps].
  - apply split_none. now apply Forall_inv in Hf.
  - cbn [app]. rewrite split_app by now apply Forall_inv in Hf. f_equal. apply IH; [discriminate|]. now apply Forall_inv_tail in Hf.
Qed.

(** ** Parts of a port list *)
Lemma part_ok p l : parse_part (trim p) = Ok l <->
  exists lo hi, port_part p lo hi /\ l = nrange lo (N.to_nat (hi - lo + 1)).
Proof.
  split.
  - destruct (trim_split p) as (a & b & Ha & Hb & E). unfold parse_part. destruct (parse_u8 10 (trim p)) as [ix|] eqn:Ep.
    + intros [= <-]. apply parse_number in Ep; [|lia]. exists ix, ix. split.
      * left. exists a, (trim p), b. auto.
      * replace (ix - ix + 1) with 1 by lia. reflexivity.
    + destruct (split_once 45 (trim p)) as [[start stop]|] eqn:Es; [|discriminate]. apply split_once_ok in Es. destruct Es as [Es _].
      destruct start as [|s0 start]; [discriminate|]. destruct stop as [|t0 stop]; [discriminate|].
      destruct (parse_u8 10 (trim (s0 :: start))) as [x|] eqn:Ex; [|discriminate].
      destruct (parse_u8 10 (trim (t0 :: stop))) as [y|] eqn:Ey; [|discriminate].
      destruct (y <=? x) eqn:L; [discriminate|]. intros [= <-]. apply parse_number in Ex, Ey; try lia.
      exists x, y. split; [|reflexivity]. right.
      destruct (trim_split (s0 :: start)) as (a1 & b1 & Ha1 & Hb1 & E1).
      destruct (trim_split (t0 :: stop)) as (a2 & b2 & Ha2 & Hb2 & E2).
      exists (a ++ a1), (trim (s0 :: start)), b1, a2, (trim (t0 :: stop)), (b2 ++ b).
      split; [|split; [apply Forall_app; auto|split; [exact Hb1|split; [exact Ha2|split; [apply Forall_app; auto|split; [exact Ex|split; [exact Ey|lia]]]]]]].
      rewrite E, Es, E1 at 1. rewrite E2 at 1. rewrite <- !app_assoc. cbn [app]. now rewrite <- !app_assoc.
  - intros (lo & hi & [(a & u & b & -> & Ha & Hb & Hu & ->)|(a & u & b & c & v & d & -> & Ha & Hb & Hc & Hd & Hu & Hv & L)] & ->).
    + pose proof (number_solid _ _ Hu) as Su. rewrite trim_solid by eauto using number_nonempty.
      unfold parse_part. apply parse_number in Hu; [|lia]. rewrite Hu. now replace (lo - lo + 1) with 1 by lia.
    + pose proof (number_solid _ _ Hu) as Su. pose proof (number_solid _ _ Hv) as Sv.
      pose proof (number_nonempty _ _ _ Hu) as Nu. pose proof (number_nonempty _ _ _ Hv) as Nv.
      assert (Et : trim (a ++ u ++ b ++ 45 :: c ++ v ++ d) = u ++ b ++ 45 :: c ++ v).
      { replace (a ++ u ++ b ++ 45 :: c ++ v ++ d) with (a ++ (u ++ b ++ 45 :: c ++ v) ++ d)
          by (rewrite <- !app_assoc; cbn [app]; now rewrite <- !app_assoc).
        destruct u as [|c0 u]; [congruence|]. cbn [app]. apply trim_core; auto.
        - now apply Forall_inv in Su.
        - intros w x E. destruct (exists_last Nv) as (v' & x' & ->).
          assert (x = x') as ->.
          { replace (c0 :: u ++ b ++ 45 :: c ++ v' ++ [x']) with ((c0 :: u ++ b ++ 45 :: c ++ v') ++ [x']) in E
              by (cbn [app]; rewrite <- !app_assoc; cbn [app]; now rewrite <- !app_assoc).
            apply app_inj_tail in E. now destruct E. }
          now apply solid_last with (v' ++ [x']) v'. }
      rewrite Et. unfold parse_part. destruct (parse_u8 10 (u ++ b ++ 45 :: c ++ v)) as [x|] eqn:Ex.
      { exfalso. apply parse_number in Ex; [|lia]. apply (number_no45 _ _ Ex). apply in_or_app. right. apply in_or_app. right. now left. }
      assert (N45 : ~ In 45 (u ++ b)).
      { intros [I|I]%in_app_or; [now apply (number_no45 _ _ Hu)|]. unfold white in Hb. rewrite Forall_forall in Hb. apply Hb in I. discriminate. }
      assert (Es : split_once 45 (u ++ b ++ 45 :: c ++ v) = Some (u ++ b, c ++ v)).
      { apply split_once_ok. split; [now rewrite <- app_assoc|exact N45]. }
      rewrite Es. assert (T1 : trim (u ++ b) = u) by exact (trim_solid [] b u (Forall_nil _) Hb Su Nu).
      assert (T2 : trim (c ++ v) = v) by (rewrite <- (app_nil_r v) at 1; exact (trim_solid c [] v Hc (Forall_nil _) Sv Nv)).
      destruct (u ++ b) as [|x0 x1] eqn:Eu; [destruct u; [congruence|discriminate]|].
      destruct (c ++ v) as [|y0 y1] eqn:Ev; [apply app_eq_nil in Ev; tauto|].
      rewrite T1, T2. apply parse_number in Hu, Hv; try lia. rewrite Hu, Hv. now replace (hi <=? lo) with false by lia.
Qed.
Lemma part_no_panic p : parse_part p <> Panic.
Proof.
  unfold parse_part. destruct (parse_u8 10 p); [discriminate|]. destruct (split_once 45 p) as [[[|s0 s] [|t0 t]]|]; try discriminate.
  destruct (parse_u8 10 _); [|discriminate]. destruct (parse_u8 10 _); [|discriminate]. now destruct (_ <=? _).
Qed.
