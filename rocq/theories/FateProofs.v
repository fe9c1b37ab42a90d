(** Proofs for the outcome of queries (C88). *)
From Verif Require Export SpecFate.
From Verif Require Import Tac DecodeProofs DecodeProofs9 ControllerProofs ControllerProofs2 ControllerProofs3 ControllerProofs4
  ControllerProofs5 ControllerProofs9 QueryProofs.

Section Fate.
  Context {St : Type} (a : honest St) (Hok : honest_ok a).
  Context {P : Type} (reads : Identifier -> outcome DecodeError (list MemoryRead))
          (parse : Identifier -> list (list N) -> outcome DecodeError P)
          (mem : N -> MemoryRead -> verdict).
  Implicit Type w : world St.
  Local Notation sp := (honest_sp a).
  Let F := said reads parse mem.
  Let ids := ident_told mem.

  Definition dies (i : N) : bool := match F i with Panic => true | _ => false end.
  Lemma dies_iff i : dies i = true <-> F i = Panic.
  Proof. unfold dies. destruct (F i); split; congruence. Qed.

  Lemma parse_each_app id rs l1 : forall l2 (s : parsing P),
    parse_each parse id rs (l1 ++ l2) s = (s' <-? parse_each parse id rs l1 s ;; parse_each parse id rs l2 s').
  Proof.
    induction l1 as [|i l1 IH]; intros l2 s; [reflexivity|]. cbn [app parse_each].
    destruct (parse_one parse id rs s i) as [s1| |]; [|reflexivity|reflexivity]. cbn [obind]. apply IH.
  Qed.
  Lemma first_dead (l : list N) : existsb dies l = true ->
    exists l1 i l2, l = l1 ++ i :: l2 /\ F i = Panic /\ Forall (fun j => F j <> Panic) l1.
  Proof.
    induction l as [|j l IH]; cbn [existsb]; [discriminate|]. destruct (dies j) eqn:E.
    - intros _. exists [], j, l. split; [reflexivity|]. split; [now apply dies_iff|constructor].
    - intros H. destruct (IH H) as (l1 & i & l2 & -> & Hi & Hl). exists (j :: l1), i, l2. split; [reflexivity|].
      split; [exact Hi|]. constructor; [|exact Hl]. intros K. apply dies_iff in K. congruence.
  Qed.

  Lemma parse_each_dies im ifm ierrs id mk rds rs :
    reads id = Ok rds ->
    Forall2 (fun rd r => rrep mk (told (fun x => x) (fun i => mem i rd)) r) rds rs ->
    forall l ps s, built F im ifm ierrs ps s ->
      Forall (fun i => N.testbit mk i = true /\ i < 64 /\ ids i = inl id) l ->
      NoDup (ps ++ l) -> existsb dies l = true -> parse_each parse id rs l s = Panic.
  Proof.
    intros Hrd HF l ps s Hb Hl Hd Hex. destruct (first_dead l Hex) as (l1 & i & l2 & -> & Hi & H1).
    apply Forall_app in Hl. destruct Hl as [Hl1 Hl2].
    destruct (parse_each_built reads parse mem im ifm ierrs id mk rds rs Hrd HF l1 ps s Hb) as (s1 & E1 & B1).
    { apply Forall_forall. intros j Hj. rewrite Forall_forall in Hl1, H1. destruct (Hl1 j Hj) as (K1 & K2 & K3).
      split; [exact K1|]. split; [exact K2|]. split; [exact K3|]. exact (H1 j Hj). }
    { rewrite app_assoc in Hd. clear -Hd. induction (ps ++ l1) as [|x l IHl]; [constructor|].
      cbn in Hd. inversion Hd as [|? ? N1 N2]; subst. constructor; [|auto].
      intros X. apply N1, in_or_app. now left. }
    rewrite parse_each_app, E1. cbn [obind parse_each]. apply Forall_inv in Hl2. destruct Hl2 as (K1 & K2 & K3).
    unfold parse_one. pose proof (pieces_gather mem mk rds rs i K1 HF) as G.
    unfold F, said in Hi. fold ids in Hi. rewrite K3 in Hi. unfold own in Hi. rewrite Hrd in Hi.
    destruct (gather mem i rds) as [ds|e]; [|discriminate]. destruct G as [-> ->]. cbn [obind].
    destruct (parse id ds); [discriminate|discriminate|reflexivity].
  Qed.

  Fixpoint fate (gs : list (Identifier * ModuleId)) : outcome Error unit :=
    match gs with
    | [] => Ok tt
    | (id, mk) :: rest =>
        match reads id with
        | Err e => Err (ETransceiver (TeDecode e))
        | Panic => Panic
        | Ok _ => if existsb dies (to_indices mk) then Panic else fate rest
        end
    end.

  Lemma parse_groups_fate im ifm ierrs gs : forall w ps s,
    reads_as a (w_sp w) mem -> built F im ifm ierrs ps s ->
    Forall (fun g => mask_ok (snd g) = true /\
      (forall rds, reads (fst g) = Ok rds -> Forall (fun rd => 1 <= rd_len rd <= 255) rds) /\
      forall i, N.testbit (snd g) i = true -> ids i = inl (fst g)) gs ->
    NoDup (ps ++ concat (map (fun g => to_indices (snd g)) gs)) ->
    match fate gs with
    | Ok _ => exists s', snd (parse_groups sp reads parse gs s w) = Ok s'
    | Err e => snd (parse_groups sp reads parse gs s w) = Err e
    | Panic => snd (parse_groups sp reads parse gs s w) = Panic
    end.
  Proof.
    induction gs as [|[id mk] gs IH]; intros w ps s Hr Hb Hg Hd.
    - exists s. reflexivity.
    - pose proof (Forall_inv Hg) as (Hmk & Hlen & Hin). apply Forall_inv_tail in Hg.
      cbn [fst snd] in *. cbn [fate parse_groups]. destruct (reads id) as [rds|e|] eqn:Hrds; [|reflexivity|reflexivity].
      specialize (Hlen rds eq_refl).
      destruct (honest_read_each a Hok mem rds w mk Hmk Hr Hlen) as (rs & w1 & ds1 & E1 & A1 & L1 & O1 & F1).
      cbn [map concat] in Hd. cbn [snd] in Hd.
      assert (Hx : NoDup (ps ++ to_indices mk)).
      { rewrite app_assoc in Hd. clear -Hd. induction (ps ++ to_indices mk) as [|x l IHl]; [constructor|].
        cbn in Hd. inversion Hd as [|? ? N1 N2]; subst. constructor; [|auto].
        intros X. apply N1, in_or_app. now left. }
      cbn [omap_err]. erewrite cbind_ok by reflexivity. erewrite cbind_ok by exact E1.
      destruct (existsb dies (to_indices mk)) eqn:Ed.
      + erewrite (parse_each_dies im ifm ierrs id mk rds rs Hrds F1 (to_indices mk) ps s Hb); [reflexivity| |exact Hx|exact Ed].
        apply Forall_forall. intros i Hi. apply in_to_indices in Hi. destruct Hi as [H64 Hi]. auto.
      + destruct (parse_each_built reads parse mem im ifm ierrs id mk rds rs Hrds F1 (to_indices mk) ps s Hb) as (s1 & E2 & B1).
        { apply Forall_forall. intros i Hi. pose proof Hi as Hi'. apply in_to_indices in Hi. destruct Hi as [H64 Hi].
          split; [exact Hi|]. split; [exact H64|]. split; [exact (Hin i Hi)|]. intros K. apply dies_iff in K.
          assert (existsb dies (to_indices mk) = true) by (apply existsb_exists; eauto). congruence. }
        { exact Hx. }
        rewrite E2. erewrite cbind_ok by reflexivity.
        apply (IH w1 (ps ++ to_indices mk) s1 A1 B1 Hg). now rewrite <- app_assoc.
  Qed.

  Definition sound (g : Identifier * ModuleId) : Prop :=
    (exists rds, reads (fst g) = Ok rds) /\ existsb dies (to_indices (snd g)) = false.
  Lemma fate_cases gs :
    (fate gs = Ok tt /\ Forall sound gs) \/
    (exists p g q, gs = p ++ g :: q /\ Forall sound p /\
       ((reads (fst g) = Panic /\ fate gs = Panic) \/
        (exists e, reads (fst g) = Err e /\ fate gs = Err (ETransceiver (TeDecode e))) \/
        (exists rds, reads (fst g) = Ok rds /\ existsb dies (to_indices (snd g)) = true /\ fate gs = Panic))).
  Proof.
    induction gs as [|[id mk] gs IH]; [left; split; [reflexivity|constructor]|]. cbn [fate].
    destruct (reads id) as [rds|e|] eqn:Er.
    - destruct (existsb dies (to_indices mk)) eqn:Ed.
      + right. exists [], (id, mk), gs. split; [reflexivity|]. split; [constructor|]. right. right. eauto.
      + assert (S : sound (id, mk)) by (split; cbn; eauto). destruct IH as [[E H]|(p & g & q & -> & H & C)].
        * left. split; [exact E|]. now constructor.
        * right. exists ((id, mk) :: p), g, q. split; [reflexivity|]. split; [now constructor|exact C].
    - right. exists [], (id, mk), gs. split; [reflexivity|]. split; [constructor|]. right. left. eauto.
    - right. exists [], (id, mk), gs. split; [reflexivity|]. split; [constructor|]. left. auto.
  Qed.

  (** The groups of the modules of [m]. *)
  Lemma query_fate w m : m < 2 ^ 64 -> reads_as a (w_sp w) mem ->
    (forall i id rds, member i m -> ids i = inl id -> reads id = Ok rds -> Forall (fun rd => 1 <= rd_len rd <= 255) rds) ->
    exists gs, gsorted gs /\
      (forall k mk, In (k, mk) gs -> exists i, N.testbit mk i = true) /\
      (forall k mk i, In (k, mk) gs -> (N.testbit mk i = true <-> N.testbit m i = true /\ ids i = inl k)) /\
      (forall i k, N.testbit m i = true -> ids i = inl k -> exists mk, In (k, mk) gs) /\
      match fate gs with
      | Ok _ => exists r, snd (parse_modules_by_identifier sp reads parse m w) = Ok r
      | Err e => snd (parse_modules_by_identifier sp reads parse m w) = Err e
      | Panic => snd (parse_modules_by_identifier sp reads parse m w) = Panic
      end.
  Proof.
    intros Hm0 Hr Hq. assert (Hm := Hm0). rewrite <- mask_ok_lt in Hm.
    destruct (honest_identifier_mem a Hok w m mem Hm Hr) as (ri & w1 & E1 & R1 & L1 & A1).
    pose proof R1 as [[Ai Fi] Ri].
    destruct (split_groups _ _ Ai) as (gs & Eg & Hgs).
    assert (Hz : forall i x, In (i, x) (zip_data (mr_modules ri) (mr_data ri)) <->
                             N.testbit m i = true /\ ids i = inl x).
    { intros i x. rewrite in_zip_get. destruct (Ri i) as [G _]. unfold rget in G. rewrite G. unfold ids.
      destruct (N.testbit m i), (ident_told mem i); intuition congruence. }
    assert (H64 : Forall (fun p : N * Identifier => fst p < 64) (zip_data (mr_modules ri) (mr_data ri))).
    { apply Forall_forall. intros [i x] H. apply Hz in H. cbn. apply (proj1 (mask_ok_testbit m) Hm). tauto. }
    destruct (groups_nodup reads parse mem _ gs Hgs (zip_nodup _ _) H64) as (Gd & Gi & Go).
    set (s0 := mkParsing (P := P) (mr_modules ri) (fm_modules (mr_failures ri)) (fm_errors (mr_failures ri)) []).
    assert (B0 : built F (mr_modules ri) (fm_modules (mr_failures ri)) (fm_errors (mr_failures ri)) [] s0).
    { constructor; cbn; auto.
      - intros i. now rewrite andb_true_r.
      - apply Ai.
      - intros i. now rewrite orb_false_r.
      - apply Fi.
      - now rewrite app_nil_r.
      - constructor. }
    pose proof Hgs as (Hs & Hg2 & Hg3).
    assert (Hb : forall k mk i, In (k, mk) gs -> (N.testbit mk i = true <-> N.testbit m i = true /\ ids i = inl k)).
    { intros k mk i Hin. destruct (Hg2 _ _ Hin) as [_ Hb]. rewrite Hb. apply Hz. }
    assert (Hne : forall k mk, In (k, mk) gs -> exists i, N.testbit mk i = true).
    { intros k mk Hin. destruct (Hg2 _ _ Hin) as [Hmk _]. exists (N.log2 mk). apply N.bit_log2. exact Hmk. }
    assert (PF := parse_groups_fate (mr_modules ri) (fm_modules (mr_failures ri)) (fm_errors (mr_failures ri)) gs w1 [] s0 A1 B0).
    exists gs. split; [exact Hs|]. split; [exact Hne|]. split; [exact Hb|]. split.
    - intros i k H1 H2. apply (Hg3 i k). apply Hz. auto.
    - assert (PF' : match fate gs with
        | Ok _ => exists s', snd (parse_groups sp reads parse gs s0 w1) = Ok s'
        | Err e => snd (parse_groups sp reads parse gs s0 w1) = Err e
        | Panic => snd (parse_groups sp reads parse gs s0 w1) = Panic
        end).
      { apply PF; [|exact Gd]. apply Forall_forall. intros [k mk] Hin. cbn [fst snd]. split; [|split].
        - destruct (Hg2 _ _ Hin) as [_ Hb']. eapply group_mask_lt; [exact Hb'|exact H64].
        - intros rds Erd. destruct (Hne k mk Hin) as [i Hi]. apply (Hb k mk i Hin) in Hi. destruct Hi as [Hi Hid].
          apply (Hq i k rds); [now apply member_testbit|exact Hid|exact Erd].
        - intros i Hi. apply (Hb k mk i Hin) in Hi. tauto. }
      clear PF. unfold parse_modules_by_identifier. erewrite cbind_ok by exact E1. rewrite Eg.
      erewrite cbind_ok by reflexivity. fold s0. unfold cbind.
      destruct (parse_groups sp reads parse gs s0 w1) as [w2 o]. cbn [snd] in PF'.
      destruct (fate gs) as [u|e|].
      + destruct PF' as (s' & ->). cbn. eauto.
      + rewrite PF'. reflexivity.
      + rewrite PF'. reflexivity.
  Qed.
End Fate.

(** ** Racks *)
Lemma kind_code : forall b, b < 256 -> ident_of_byte b =
  if b <? 31 then Named b else if b <? 33 then Other 2 b else if b <? 128 then Other 0 b else Other 1 b.
Proof.
  assert (H : forallb (fun b => benum_eqb (ident_of_byte b)
      (if b <? 31 then Named b else if b <? 33 then Other 2 b else if b <? 128 then Other 0 b else Other 1 b)) (nrange 0 256) = true)
    by (vm_compute; reflexivity).
  intros b Hb. rewrite forallb_forall in H. apply benum_eqb_eq, H, in_nrange. cbn. lia.
Qed.
Lemma read_before_kinds x y : byte_memory x -> byte_memory y ->
  (read_before x y <-> benum_ltb (kind_of x) (kind_of y) = true).
Proof.
  intros Hx Hy. specialize (Hx sff_low 0). specialize (Hy sff_low 0). unfold read_before, read_rank, kind_of.
  set (a := x sff_low 0) in *. set (b := y sff_low 0) in *. rewrite (kind_code a Hx), (kind_code b Hy).
  destruct (N.eqb_spec a 31), (N.eqb_spec a 32), (N.eqb_spec b 31), (N.eqb_spec b 32); cbn [orb]; try lia;
    destruct (N.ltb_spec a 31); try lia; destruct (N.ltb_spec b 31); try lia;
    destruct (N.ltb_spec a 33); try lia; destruct (N.ltb_spec b 33); try lia;
    destruct (N.ltb_spec a 128); try lia; destruct (N.ltb_spec b 128); try lia;
    cbn [benum_ltb Nat.ltb Nat.leb Nat.eqb orb andb]; rewrite ?N.ltb_lt; try lia; split; try discriminate; try lia; auto.
Qed.

Section RackFate.
  Context {St : Type} (a : honest St) (Ha : honest_ok a) (w : world St) (m : N) (k : rack)
    (Hm : m < 2 ^ 64) (Hr : reads_as a (w_sp w) (shows k)) (Hk : bytes_rack k).
  Context {P : Type} (reads : Identifier -> outcome DecodeError (list MemoryRead))
          (parse : Identifier -> list (list N) -> outcome DecodeError P) (Hin : In reads decoders).
  Let crash := fun mem => decoded reads parse (kind_of mem) mem = Panic.
  Local Notation q := (snd (parse_modules_by_identifier (honest_sp a) reads parse m w)).

  Lemma rack_bytes i mem : k i = inl mem -> byte_memory mem.
  Proof. intros E. specialize (Hk i). now rewrite E in Hk. Qed.
  Lemma rack_id i x : ident_told (shows k) i = inl x <-> exists mem, k i = inl mem /\ kind_of mem = x.
  Proof.
    destruct (k i) as [mem|b] eqn:E.
    - rewrite (ident_rack k i mem E). split; [intros [= <-]; eauto|intros (mem' & [= <-] & <-); reflexivity].
    - rewrite (ident_dead k i b E). split; [discriminate|intros (mem' & H & _); discriminate].
  Qed.
  Lemma rack_said i mem : k i = inl mem ->
    (said reads parse (shows k) i = Panic <-> decoded reads parse (kind_of mem) mem = Panic).
  Proof.
    intros E. unfold said. rewrite (ident_rack k i mem E). unfold own, decoded.
    destruct (reads (kind_of mem)) as [rds|e|]; [|split; discriminate|split; reflexivity].
    rewrite (gather_rack k i mem rds E). destruct (parse _ _); split; congruence.
  Qed.
  Lemma read_kind id : match reads id with
    | Ok rds => supported_kind id = true /\ Forall (fun rd => 1 <= rd_len rd <= 255) rds
    | Err e => supported_kind id = false /\ e = DeUnsupportedIdentifier id
    | Panic => False end.
  Proof.
    destruct (supported_kind id) eqn:E.
    - destruct (reads_len reads id Hin E) as (rds & -> & H). auto.
    - rewrite (reads_unsupported reads id Hin E). auto.
  Qed.

  Lemma rack_fate :
    ((exists r, q = Ok r) /\ all_modules m k (fun mem => ~ stops crash mem)) \/
    (q = Panic /\ exists mem, first_stop crash m k mem /\ supported_kind (kind_of mem) = true) \/
    (exists mem, q = Err (not_supported mem) /\ first_stop crash m k mem /\ supported_kind (kind_of mem) = false).
  Proof.
    destruct (query_fate a Ha reads parse (shows k) w m Hm Hr) as (gs & Hs & Hne & Hb & Hall & Hq).
    { intros i id rds _ _ E. pose proof (read_kind id) as K. rewrite E in K. tauto. }
    assert (Mod : forall id mk i, In (id, mk) gs -> N.testbit mk i = true ->
      member i m /\ exists mem, k i = inl mem /\ kind_of mem = id).
    { intros id mk i H1 H2. apply (Hb id mk i H1) in H2. destruct H2 as [H2 H3]. split; [now apply member_testbit|].
      now apply rack_id. }
    assert (Snd : forall id mk i mem, In (id, mk) gs -> sound reads parse (shows k) (id, mk) -> N.testbit mk i = true -> k i = inl mem ->
      ~ stops crash mem).
    { intros id mk i mem H1 ((rds & H2) & H3) Hi E. cbn [fst snd] in *. destruct (Mod id mk i H1 Hi) as (H4 & mem' & E' & H5).
      rewrite E in E'. injection E' as <-. pose proof (read_kind id) as K. rewrite H2 in K. rewrite <- H5 in K.
      intros [H6|H6]; [destruct K; congruence|]. unfold crash in H6. apply (rack_said i mem E) in H6.
      assert (existsb (dies reads parse (shows k)) (to_indices mk) = true); [|congruence].
      apply existsb_exists. exists i. split; [|now apply dies_iff]. apply in_to_indices. split; [|exact Hi].
      apply member_testbit in H4. apply (proj1 (mask_ok_testbit m)); [now apply mask_ok_lt|exact H4]. }
    destruct (fate_cases reads parse (shows k) gs) as [[Ef HF]|(p & [id mk] & rest & -> & Hp & C)].
    - left. rewrite Ef in Hq. split; [exact Hq|]. intros i mem Hi E. rewrite Forall_forall in HF.
      pose proof (proj1 (member_testbit _ _) Hi) as Hi'.
      destruct (Hall i (kind_of mem) Hi' (ident_rack k i mem E)) as (mk & Hmk).
      apply (Snd _ mk i mem Hmk (HF _ Hmk)); [|exact E]. apply (Hb _ mk i Hmk). split; [exact Hi'|]. now apply ident_rack.
    - right. cbn [fst snd] in C.
      assert (Hg : In (id, mk) (p ++ (id, mk) :: rest)) by (apply in_or_app; right; now left).
      assert (Later : forall j mem', member j m -> k j = inl mem' -> stops crash mem' ->
        benum_ltb (kind_of mem') id = true -> False).
      { intros j mem' Hj E' S B. pose proof (proj1 (member_testbit _ _) Hj) as Hj'.
        destruct (Hall j (kind_of mem') Hj' (ident_rack k j mem' E')) as (mk' & Hmk').
        assert (Hj2 : N.testbit mk' j = true) by (apply (Hb _ mk' j Hmk'); split; [exact Hj'|now apply ident_rack]).
        apply in_app_or in Hmk'. destruct Hmk' as [Hmk'|[Hmk'|Hmk']].
        - rewrite Forall_forall in Hp. apply (Snd _ mk' j mem' (in_or_app _ _ _ (or_introl Hmk')) (Hp _ Hmk') Hj2 E' S).
        - injection Hmk' as E1 _. rewrite E1, benum_ltb_irrefl in B. discriminate.
        - assert (B2 : benum_ltb id (kind_of mem') = true).
          { unfold gsorted in Hs. clear -Hs Hmk'. induction p as [|x p IH]; cbn in Hs; inversion Hs as [|? ? H1 H2]; subst.
            - rewrite Forall_forall in H2. exact (H2 _ Hmk').
            - auto. }
          pose proof (benum_ltb_trans _ _ _ B B2) as T. rewrite benum_ltb_irrefl in T. discriminate. }
      assert (First : forall i mem, N.testbit mk i = true -> k i = inl mem -> stops crash mem -> first_stop crash m k mem).
      { intros i mem Hi E S. destruct (Mod id mk i Hg Hi) as (H4 & mem' & E' & H5). rewrite E in E'. injection E' as <-.
        split; [eauto|]. split; [exact S|]. intros j mem' Hj E' S' B.
        apply (read_before_kinds mem' mem (rack_bytes j mem' E') (rack_bytes i mem E)) in B. rewrite H5 in B.
        exact (Later j mem' Hj E' S' B). }
      pose proof (read_kind id) as K. destruct C as [[C _]|[(e & C & Ef)|(rds & C & D & Ef)]].
      + rewrite C in K. destruct K.
      + rewrite C in K. destruct K as [K1 ->]. right. destruct (Hne id mk Hg) as [i Hi].
        destruct (Mod id mk i Hg Hi) as (H4 & mem & E & H5). exists mem. rewrite Ef in Hq.
        split; [rewrite Hq; unfold not_supported; now rewrite H5|]. rewrite H5. split; [|exact K1].
        apply (First i mem Hi E). left. now rewrite H5.
      + rewrite C in K. destruct K as [K1 _]. left. rewrite Ef in Hq. split; [exact Hq|].
        apply existsb_exists in D. destruct D as (i & Hi & D). apply in_to_indices in Hi. destruct Hi as [_ Hi].
        destruct (Mod id mk i Hg Hi) as (H4 & mem & E & H5). exists mem. rewrite H5. split; [|exact K1].
        apply (First i mem Hi E). right. apply dies_iff in D. now apply (rack_said i mem E).
  Qed.

  Lemma first_kinds x y : first_stop crash m k x -> first_stop crash m k y -> kind_of x = kind_of y.
  Proof.
    intros ((i & Hi & Ei) & Sx & Fx) ((j & Hj & Ej) & Sy & Fy).
    pose proof (Fx j y Hj Ej Sy) as N1. pose proof (Fy i x Hi Ei Sx) as N2.
    rewrite (read_before_kinds y x (rack_bytes j y Ej) (rack_bytes i x Ei)) in N1.
    rewrite (read_before_kinds x y (rack_bytes i x Ei) (rack_bytes j y Ej)) in N2.
    destruct (benum_eqb (kind_of x) (kind_of y)) eqn:E; [now apply benum_eqb_eq|].
    destruct (benum_ltb (kind_of x) (kind_of y)) eqn:B; [congruence|]. exfalso. apply N1. now apply benum_total.
  Qed.

  Lemma rack_ends : ends_as crash m k not_supported q.
  Proof.
    assert (No : all_modules m k (fun mem => ~ stops crash mem) -> forall mem, first_stop crash m k mem -> False).
    { intros H mem ((i & Hi & E) & S & _). exact (H i mem Hi E S). }
    destruct rack_fate as [[(r & E) H]|[(E & mem & F & S)|(mem & E & F & S)]]; rewrite E; (split; [|split]).
    - split; eauto.
    - split; [discriminate|]. intros (mem & F & _). destruct (No H mem F).
    - intros e. split; [discriminate|]. intros (mem & F & _). destruct (No H mem F).
    - split; [intros (r & K); discriminate|]. intros K. destruct (No K mem F).
    - split; eauto.
    - intros e. split; [discriminate|]. intros (mem' & F' & S' & _). rewrite (first_kinds _ _ F F') in S. congruence.
    - split; [intros (r & K); discriminate|]. intros K. destruct (No K mem F).
    - split; [discriminate|]. intros (mem' & F' & S'). rewrite (first_kinds _ _ F F') in S. congruence.
    - intros e. split; [intros [= <-]; eauto|]. intros (mem' & F' & S' & ->). unfold not_supported.
      now rewrite (first_kinds _ _ F F').
  Qed.
End RackFate.

Lemma ends_as_ext {Er A} (c1 c2 : memory -> Prop) m k err (o : outcome Er A) :
  (forall i mem, k i = inl mem -> (c1 mem <-> c2 mem)) -> ends_as c1 m k err o -> ends_as c2 m k err o.
Proof.
  intros H (H1 & H2 & H3).
  assert (S : forall i mem, k i = inl mem -> (stops c1 mem <-> stops c2 mem)).
  { intros i mem E. unfold stops. rewrite (H i mem E). tauto. }
  assert (F : forall mem, first_stop c1 m k mem <-> first_stop c2 m k mem).
  { intros mem. unfold first_stop. split; intros ((i & Hi & E) & Sm & Fm).
    - split; [eauto|]. split; [now apply (S i mem E)|]. intros j mem' Hj E' S'. apply (Fm j mem' Hj E'). now apply (S j mem' E').
    - split; [eauto|]. split; [now apply (S i mem E)|]. intros j mem' Hj E' S'. apply (Fm j mem' Hj E'). now apply (S j mem' E'). }
  split; [|split].
  - rewrite H1. unfold all_modules. split; intros K i mem Hi E X; apply (S i mem E) in X; exact (K i mem Hi E X).
  - rewrite H2. split; intros (mem & K & L); exists mem; (split; [now apply F|exact L]).
  - intros e. rewrite H3. split; intros (mem & K & L); exists mem; (split; [now apply F|exact L]).
Qed.

Section Fates.
  Context {St : Type} (a : honest St) (Ha : honest_ok a) (w : world St) (m : N) (k : rack)
    (Hm : m < 2 ^ 64) (Hr : reads_as a (w_sp w) (shows k)) (Hk : bytes_rack k).
  Lemma fates :
    ends_as no_crash m k not_supported (snd (vendor_info (honest_sp a) m w)) /\
    ends_as no_crash m k not_supported (snd (power_control (honest_sp a) m w)) /\
    ends_as banks_crash m k not_supported (snd (memory_model (honest_sp a) m w)) /\
    ends_as scale_crash m k not_supported (snd (monitors (honest_sp a) m w)) /\
    ends_as path_crash m k not_supported (snd (datapath (honest_sp a) m w)).
  Proof.
    split; [|split; [|split; [|split]]]; (eapply ends_as_ext; [|apply rack_ends; auto; cbn; auto 10]); intros i mem E; unfold no_crash, banks_crash, scale_crash, path_crash;
      destruct (panics_exactly (kind_of mem) mem (rack_bytes k Hk i mem E)) as (V & Pw & Me & Mo & Da); tauto.
  Qed.
End Fates.

(** ** Power states *)
Section PowerFate.
  Context {St : Type} (a : honest St) (Hok : honest_ok a).
  Local Notation sp := (honest_sp a).
  Implicit Type w : world St.
  Lemma power_fails w m mem (st := hs_verdict a (w_sp w) (HStatus m) None) e : mask_ok m = true ->
    reads_as a (hs_next a (w_sp w) (HStatus m) None) mem ->
    snd (power_control sp (readable_mask m st) (next a w (HStatus m) None)) = Err e -> readable_mask m st <> 0 ->
    snd (power sp m w) = Err e.
  Proof.
    intros Hm Hr Hpc Hnz. destruct (honest_status a Hok w m Hm) as (rs & E0 & _ & R0).
    change (vd a w (HStatus m) None) with st in R0. pose proof R0 as [[As Fs] Rs].
    set (w0 := next a w (HStatus m) None) in *.
    unfold power. erewrite cbind_ok by exact E0.
    destruct (filter_module_data (mr_modules rs) (mr_data rs) _) as [powered pst] eqn:EP.
    destruct (filter_eq _ _ _ _ _ (proj1 As) EP) as [Ap Gp].
    destruct (filter_module_data powered pst _) as [in_reset irst] eqn:ER.
    destruct (filter_eq _ _ _ _ _ (proj1 Ap) ER) as [Ar Gr].
    destruct (remove_module_data powered pst in_reset) as [rdb rst] eqn:ED.
    destruct (remove_eq _ _ _ _ _ Ap ED) as [Ad Gd].
    (* lookups in terms of [st] *)
    assert (Gs : forall i, get (mr_modules rs) (mr_data rs) i =
                   if N.testbit m i then match st i with inl d => Some (hd 0 d) | inr _ => None end else None).
    { intros i. destruct (Rs i) as [K _]. unfold rget in K. rewrite K. unfold told.
      destruct (N.testbit m i), (st i); reflexivity. }
    assert (Gp' : forall i, get powered pst i =
                   if N.testbit m i then match st i with
                     | inl d => if supplied (hd 0 d) then Some (hd 0 d) else None
                     | inr _ => None end else None).
    { intros i. rewrite Gp, Gs. destruct (N.testbit m i); [|reflexivity]. destruct (st i); [|reflexivity].
      now rewrite contains_supplied. }
    assert (Gr' : forall i, N.testbit in_reset i =
                   N.testbit m i && match st i with
                     | inl d => supplied (hd 0 d) && held_in_reset (hd 0 d)
                     | inr _ => false end).
    { intros i. rewrite (testbit_get _ _ i Ar), Gr, Gp'. destruct (N.testbit m i); [|reflexivity].
      destruct (st i) as [d|]; [|reflexivity]. cbn [andb]. destruct (supplied (hd 0 d)); [|reflexivity]. rewrite contains_reset.
      now destruct (held_in_reset (hd 0 d)). }
    assert (Gd' : forall i, get rdb rst i =
                   if N.testbit m i && readable st i then match st i with inl d => Some (hd 0 d) | inr _ => None end else None).
    { intros i. rewrite Gd, Gr', Gp'. unfold readable. destruct (N.testbit m i); [|reflexivity]. cbn [andb].
      destruct (st i) as [d|]; [|reflexivity].
      destruct (supplied (hd 0 d)), (held_in_reset (hd 0 d)); reflexivity. }
    assert (Tb : forall i, N.testbit rdb i = N.testbit m i && readable st i).
    { intros i. rewrite (testbit_get _ _ i Ad), Gd'. unfold readable. destruct (N.testbit m i); [|reflexivity].
      cbn [andb]. destruct (st i) as [d|]; [|reflexivity]. destruct (_ && _); reflexivity. }
    assert (Erd : rdb = readable_mask m st).
    { apply mask_ext. intros i. rewrite Tb. apply eq_true_iff_eq. unfold readable_mask.
      rewrite port_mask_spec, existsb_eqb_in, filter_In, in_to_indices_ok, andb_true_iff by exact Hm. reflexivity. }
    rewrite <- Erd in Hpc, Hnz. assert (Hz : Nat.eqb (m_count rdb) 0 = false).
    { apply Nat.eqb_neq. intros Hz. apply count0 in Hz; [|apply Ad]. contradiction. }
    rewrite Hz. fold w0 in Hpc. unfold cbind. destruct (power_control sp rdb w0) as [w' o]. cbn [snd] in Hpc. subst o. reflexivity.
  Qed.
  Lemma power_ends w m k (st := hs_verdict a (w_sp w) (HStatus m) None) : m < 2 ^ 64 ->
    reads_as a (hs_next a (w_sp w) (HStatus m) None) (shows k) -> bytes_rack k ->
    ends_as no_crash (readable_mask m st) k not_supported (snd (power sp m w)).
  Proof.
    intros Hm Hr Hk. assert (Hm' := Hm). rewrite <- mask_ok_lt in Hm'.
    assert (Mr : mask_ok (readable_mask m st) = true).
    { unfold readable_mask. apply mask_ok_testbit. intros i. rewrite port_mask_spec, existsb_eqb_in, filter_In, in_to_indices_ok by exact Hm'.
      intros [H _]. exact (proj1 (mask_ok_testbit m) Hm' i H). }
    assert (Mb : forall i, member i (readable_mask m st) <-> member i m /\ readable st i = true).
    { intros i. rewrite !member_testbit. unfold readable_mask. now rewrite port_mask_spec, existsb_eqb_in, filter_In, in_to_indices_ok by exact Hm'. }
    destruct (fates a Hok (next a w (HStatus m) None) (readable_mask m st) k (proj1 (mask_ok_lt _) Mr) Hr Hk) as (_ & (H1 & H2 & H3) & _).
    destruct (snd (power_control sp (readable_mask m st) (next a w (HStatus m) None))) as [r|e|] eqn:E.
    - assert (Hs : all_modules (readable_mask m st) k (fun mem => ~ stops no_crash mem)) by (apply H1; eauto).
      destruct (power_correct a Hok w m (shows k) Hm Hr) as (rp & ds & Ep & _).
      { intros i id Hi Hrd Hid. apply rack_id in Hid. destruct Hid as (mem & Em & <-).
        assert (K : ~ stops no_crash mem) by (apply (Hs i mem); [now apply Mb|exact Em]).
        unfold stops in K. destruct (supported_kind (kind_of mem)); [reflexivity|]. exfalso. auto. }
      rewrite Ep. split; [|split].
      + split; eauto.
      + split; [discriminate|]. intros K. apply H2 in K. discriminate.
      + intros e. split; [discriminate|]. intros K. apply H3 in K. discriminate.
    - assert (Ep : snd (power sp m w) = Err e).
      { apply (power_fails w m (shows k) e Hm' Hr); [exact E|]. intros Hz. destruct (proj1 (H3 e) eq_refl) as (mem & ((i & Hi & _) & _) & _).
        unfold st in Hz. fold st in Hz. rewrite Hz in Hi. apply member_testbit in Hi. now rewrite N.bits_0 in Hi. }
      rewrite Ep. split; [|split].
      + split; [intros (r & K); discriminate|]. intros K. apply H1 in K. destruct K; discriminate.
      + split; [discriminate|]. intros K. apply H2 in K. discriminate.
      + intros x. split.
        * intros [= <-]. now apply H3.
        * intros K. apply H3 in K. injection K as ->. reflexivity.
    - exfalso. destruct (proj1 H2 eq_refl) as (mem & (_ & [S|[]] & _) & S'). congruence.
  Qed.
End PowerFate.
