(** Proofs about the printed monitors (C66): layout, and over a rack. *)
From Coq Require Import SpecFloat String Lia.
From Verif Require Import QueryProofs Tac SpecMonitor MonitorProofs DecodeProofs4 TableProofs TableProofs2 TableProofs3 ModuleIdProofs CliProofs
  CliProofs5 ResultsProofs ControllerProofs.
Import ListNotations.
Open Scope N_scope.

(** ** Reading a line *)
Lemma unindent_spaces n l : unindent (repeat 32 n ++ l) = unindent l.
Proof. induction n; [reflexivity|exact IHn]. Qed.
Lemma entry_read name v : ~ In 58 name -> entry_from (name ++ T ": " ++ v) = Some (name, v).
Proof.
  induction name as [|c r IH]; intros H; [reflexivity|]. cbn [app entry_from]. destruct (N.eqb_spec c 58) as [->|_]; [destruct H; now left|].
  rewrite IH; [reflexivity|]. intros X. apply H. now right.
Qed.
Definition good_name (name : text) : bool := plainb name && match name with 32 :: _ => false | [] => false | _ => true end.
Lemma line_entry name v : good_name name = true -> entry_of (monitor_line name v) = Some (name, or_dashes v).
Proof.
  intros H. apply andb_true_iff in H as [H1 H2]. apply plainb_ok in H1. unfold entry_of, monitor_line, align_right, NAME_WIDTH.
  change (match v with Some v0 => v0 | None => T "--" end) with (or_dashes v).
  change (T "  ") with (repeat 32 2). rewrite unindent_spaces, <- app_assoc, unindent_spaces.
  assert (E : unindent (name ++ T ": " ++ or_dashes v) = name ++ T ": " ++ or_dashes v).
  { destruct name as [|c r]; [discriminate|]. cbn [app unindent].
    destruct c as [|p]; [reflexivity|]. do 6 (try destruct p as [p|p|]; try reflexivity; try discriminate H2). }
  refine (eq_trans (f_equal entry_from E) _). apply entry_read. apply plain_no; [exact H1|lia].
Qed.

Section Show.
  Context (show : f32 -> text).
  Definition readout_for (x : Monitors) : readout :=
    mkReadout (option_map show (mo_temperature x)) (option_map show (mo_supply_voltage x))
      (option_map (fun l => (match l with Average _ :: _ => true | _ => false end, display_list (map rx_value l))) (mo_receiver_power x))
      (option_map display_list (mo_bias_current x)) (option_map display_list (mo_transmitter_power x))
      (match aux am_aux1 x with
       | Some (Aux1TecCurrent c) => Some (T "TEC current (mA)", show c)
       | Some (Aux1Custom (a, b)) => Some (T "Custom", T "[0x" ++ hex02 a ++ T ",0x" ++ hex02 b ++ T "]")
       | None => None
       end)
      (match aux am_aux2 x with
       | Some (Aux2TecCurrent c) => Some (T "TEC current (mA)", show c)
       | Some (Aux2LaserTemperature t) => Some (T "Laser temp (C)", show t)
       | None => None
       end)
      (match aux am_aux3 x with
       | Some (Aux3LaserTemperature t) => Some (T "Laser temp (C)", show t)
       | Some (Aux3AdditionalSupplyVoltage v) => Some (T "Supply voltage 2 (V)", show v)
       | None => None
       end).
  Definition has_lanes (x : Monitors) : Prop := mo_receiver_power x <> Some [].

  Lemma block_ok port x : port < 256 -> has_lanes x ->
    exists b, monitor_block show port x = Ok b /\ block_of (port, readout_for x) b.
  Proof.
    intros Hp Hx. unfold monitor_block. destruct x as [t v rx b tx ax]. unfold has_lanes in Hx. cbn [mo_receiver_power] in *.
    assert (R : exists rxl, match rx with
           | Some [] => Panic
           | Some (p :: l) =>
               Ok (monitor_line (match p with Average _ => T "Avg Rx power (mW)" | PeakToPeak _ => T "P-P Rx power (mW)" end)
                     (Some (bracketed (map rx_value (p :: l)))))
           | None => Ok (monitor_line (T "Rx power (mW)") None)
           end = (Ok rxl : outcome unit text) /\
      entry_of rxl = Some (match option_map (fun l => (match l with Average _ :: _ => true | _ => false end, display_list (map rx_value l))) rx with
       | Some (avg, t) => (if avg then T "Avg Rx power (mW)" else T "P-P Rx power (mW)", in_brackets t)
       | None => (T "Rx power (mW)", T "--")
       end)).
    { destruct rx as [[|p l]|]; [congruence| |]; eexists; (split; [reflexivity|]).
      - rewrite line_entry by now destruct p. cbn [option_map]. now destruct p.
      - now rewrite line_entry. }
    destruct R as (rxl & -> & Erx). cbn [obind]. eexists. split; [reflexivity|]. eexists. cbn [fst snd]. rewrite number_u8 by exact Hp.
    split; [reflexivity|]. cbn [map]. rewrite Erx. unfold entries. cbn [readout_for ro_temperature ro_voltage ro_rx ro_bias ro_tx ro_aux1 ro_aux2 ro_aux3
      mo_temperature mo_supply_voltage mo_receiver_power mo_bias_current mo_transmitter_power map].
    rewrite !line_entry by reflexivity.
    assert (A1 : forall o, entry_of (monitor_line (fst (aux1_monitor_value show o)) (snd (aux1_monitor_value show o))) =
      Some (aux_entry (T "Aux 1") match o with
       | Some (Aux1TecCurrent c) => Some (T "TEC current (mA)", show c)
       | Some (Aux1Custom (a, b)) => Some (T "Custom", T "[0x" ++ hex02 a ++ T ",0x" ++ hex02 b ++ T "]")
       | None => None
       end)).
    { intros [[[p q]|c]|]; cbn [aux1_monitor_value fst snd]; rewrite line_entry by reflexivity; reflexivity. }
    assert (A2 : forall o, entry_of (monitor_line (fst (aux2_monitor_value show o)) (snd (aux2_monitor_value show o))) =
      Some (aux_entry (T "Aux 2") match o with
       | Some (Aux2TecCurrent c) => Some (T "TEC current (mA)", show c)
       | Some (Aux2LaserTemperature t) => Some (T "Laser temp (C)", show t)
       | None => None
       end)).
    { intros [[]|]; cbn [aux2_monitor_value fst snd]; rewrite line_entry by reflexivity; reflexivity. }
    assert (A3 : forall o, entry_of (monitor_line (fst (aux3_monitor_value show o)) (snd (aux3_monitor_value show o))) =
      Some (aux_entry (T "Aux 3") match o with
       | Some (Aux3LaserTemperature t) => Some (T "Laser temp (C)", show t)
       | Some (Aux3AdditionalSupplyVoltage v) => Some (T "Supply voltage 2 (V)", show v)
       | None => None
       end)).
    { intros [[]|]; cbn [aux3_monitor_value fst snd]; rewrite line_entry by reflexivity; reflexivity. }
    rewrite A1, A2, A3. destruct t, v, b, tx; reflexivity.
  Qed.
  Lemma blocks_ok : forall l nl, Forall (fun p => fst p < 256 /\ has_lanes (snd p)) l ->
    exists bs, monitor_blocks show nl l = Ok ((if nl then match l with [] => [] | _ => [[]] end else []) ++ spaced bs) /\
      Forall2 (fun b p => block_of (fst p, readout_for (snd p)) b) bs l.
  Proof.
    induction l as [|(i & x) l IH]; intros nl H; [exists []; split; [now destruct nl|constructor]|].
    inversion H as [|p q [Hi Hx] Hl]; subst. cbn [fst snd] in Hi, Hx. cbn [monitor_blocks].
    destruct (block_ok i x Hi Hx) as (b & Eb & Hb). destruct (IH true Hl) as (bs & E & F). rewrite Eb, E. cbn [obind].
    exists (b :: bs). split; [|constructor; assumption]. f_equal. destruct nl; cbn [app].
    - f_equal. destruct l; inversion F; subst; cbn [spaced app]; [apply app_nil_r|reflexivity].
    - destruct l; inversion F; subst; cbn [spaced app]; [apply app_nil_r|reflexivity].
  Qed.

  (** ** From memory *)
  Lemma words_bytes mem p k n : byte_memory mem -> Forall byte_word (words_at_mem mem p k n).
  Proof. intros H. apply Forall_map, Forall_forall. intros i _. split; apply H. Qed.
  Lemma powers_ok ws : Forall byte_word ws -> display_list (map decode_optical_power ws) = powers_shown ws.
  Proof.
    intros H. unfold display_list, powers_shown, decimals. f_equal. rewrite !map_map. apply map_ext_in. intros w Hw. apply power_shown.
    rewrite Forall_forall in H. now apply H.
  Qed.
  Lemma bias_ok k ws : k = 1 \/ k = 2 \/ k = 4 -> Forall byte_word ws ->
    bias_shown k ws (display_list (map (fun w => f32_mul (decode_bias_current w) (f32_of_Z (Z.of_N k))) ws)).
  Proof.
    intros Hk H. assert (G : exists l, map fixed4 (map (fun w => f32_mul (decode_bias_current w) (f32_of_Z (Z.of_N k))) ws) = map decimal4 l /\
      Forall2 (fun w n => n <= 20 * k * raw w + bias_error k /\ 20 * k * raw w <= n + bias_error k) ws l).
    { induction H as [|w ws Hw H IH]; [exists []; split; constructor|]. destruct IH as (l & E & F).
      destruct (bias_scaled_counter w k Hw Hk) as (q & Eq & B). exists (q :: l). split; [cbn [map]; now rewrite Eq, E|constructor; assumption]. }
    destruct G as (l & E & F). exists l. split; [|exact F]. unfold display_list, decimals. now rewrite E.
  Qed.
  Lemma bias_ok_plain ws : Forall byte_word ws -> bias_shown 1 ws (display_list (map decode_bias_current ws)).
  Proof.
    intros H. exists (map (fun w => 20 * raw w) ws). split.
    - unfold display_list, decimals. f_equal. rewrite !map_map. apply map_ext_in. intros w Hw. apply bias_counter.
      rewrite Forall_forall in H. now apply H.
    - clear H. induction ws; constructor; [cbn; lia|assumption].
  Qed.
  Lemma rx_ok (avg : bool) ws : Forall byte_word ws -> ws <> [] ->
    (match map (fun w => (if avg then Average else PeakToPeak) (decode_optical_power w)) ws with Average _ :: _ => true | _ => false end,
     display_list (map rx_value (map (fun w => (if avg then Average else PeakToPeak) (decode_optical_power w)) ws))) = (avg, powers_shown ws).
  Proof.
    intros H Hn. f_equal; [destruct ws, avg; reflexivity || congruence|]. rewrite <- powers_ok by exact H. f_equal. rewrite map_map.
    apply map_ext. intros w. now destruct avg.
  Qed.
  Lemma bit_any mem j : j < 5 -> N.testbit (mem (cmis_up 1) 159) j = true -> any_aux mem = true.
  Proof.
    intros Hj H. unfold any_aux. destruct (N.eqb_spec (mem (cmis_up 1) 159 mod 32) 0) as [E|]; [|reflexivity].
    change 32 with (2 ^ 5) in E. rewrite <- (N.mod_pow2_bits_low _ 5 j Hj), E, N.bits_0 in H. discriminate.
  Qed.
  Lemma monitors_readout mem x : byte_memory mem -> monitors_of mem x -> readout_of show mem (readout_for x) /\ has_lanes x.
  Proof.
    intros Hb. unfold monitors_of, readout_of. destruct (sff_kind (kind_of mem)).
    - intros ->. split; [|discriminate]. unfold sff_readout, readout_for, sff_monitors_of, aux.
      cbn [ro_temperature ro_voltage ro_rx ro_bias ro_tx ro_aux1 ro_aux2 ro_aux3
        mo_temperature mo_supply_voltage mo_receiver_power mo_bias_current mo_transmitter_power mo_aux].
      assert (OM : forall {A B} (f : A -> B) c (y : A), option_map f (shown c y) = shown c (f y)) by (intros A B f c y; now destruct c).
      rewrite !OM. split; [reflexivity|]. split; [reflexivity|]. split.
      { cbn [option_map]. now rewrite (rx_ok _ _ (words_bytes mem sff_low 34 4 Hb)). }
      split.
      { unfold opt_shown, shown. destruct (N.testbit _ 2); [|reflexivity]. eexists. split; [reflexivity|]. apply bias_ok_plain, words_bytes, Hb. }
      rewrite powers_ok by (apply words_bytes, Hb). repeat split; reflexivity.
    - intros (scale & Es & ->). split; [|unfold has_lanes, cmis_monitors_of; cbn [mo_receiver_power]; unfold shown; destruct (N.testbit _ 2); discriminate].
      unfold cmis_readout, readout_for, cmis_monitors_of, aux.
      cbn [ro_temperature ro_voltage ro_rx ro_bias ro_tx ro_aux1 ro_aux2 ro_aux3
        mo_temperature mo_supply_voltage mo_receiver_power mo_bias_current mo_transmitter_power mo_aux].
      assert (OM : forall {A B} (f : A -> B) c (y : A), option_map f (shown c y) = shown c (f y)) by (intros A B f c y; now destruct c).
      rewrite !OM. split; [reflexivity|]. split; [reflexivity|]. split.
      { now rewrite (rx_ok _ _ (words_bytes mem p11 186 8 Hb)). }
      split.
      { unfold opt_shown, shown. destruct (N.testbit _ 0); [|reflexivity]. eexists. split; [reflexivity|].
        unfold scale_of. unfold bias_scale in Es.
        assert (X : exists k, (k = 1 \/ k = 2 \/ k = 4) /\ scale = f32_of_Z (Z.of_N k) /\ 2 ^ (mem (cmis_up 1) 160 / 8 mod 4) = k).
        { destruct (mem (cmis_up 1) 160 / 8 mod 4) as [|[[]|[]|]]; try discriminate Es; injection Es as <-;
            [exists 1|exists 4|exists 2]; (split; [auto|split; reflexivity]). }
        destruct X as (k & Hk & -> & ->). apply bias_ok; [exact Hk|apply words_bytes, Hb]. }
      rewrite powers_ok by (apply words_bytes, Hb). split; [reflexivity|].
      pose proof (bit_any mem 2 ltac:(lia)) as B2. pose proof (bit_any mem 3 ltac:(lia)) as B3. pose proof (bit_any mem 4 ltac:(lia)) as B4.
      assert (HW : word_shown (word_at_mem mem cmis_low 18) =
        T "[0x" ++ hex02 (mem cmis_low 18) ++ T ",0x" ++ hex02 (mem cmis_low (18 + 1)) ++ T "]").
      { unfold word_shown, word_at_mem. cbn [fst snd]. now rewrite !hex_ok by apply Hb. }
      cbv zeta. rewrite HW. clear HW. unfold word_at_mem, shown.
      set (s := mem (cmis_up 1) 159) in *. set (o := mem (cmis_up 1) 145). set (any := any_aux mem) in *. clearbody s o any.
      cbn [am_aux1 am_aux2 am_aux3].
      destruct any; cbn [am_aux1 am_aux2 am_aux3].
      + destruct (N.testbit s 2), (N.testbit s 3), (N.testbit s 4), (N.testbit o 0), (N.testbit o 1), (N.testbit o 2); repeat split; reflexivity.
      + destruct (N.testbit s 2); [discriminate (B2 eq_refl)|]. destruct (N.testbit s 3); [discriminate (B3 eq_refl)|].
        destruct (N.testbit s 4); [discriminate (B4 eq_refl)|]. repeat split; reflexivity.
  Qed.
  Lemma field_value i x f : i < 256 -> monitor_field show i x f = readout_value i (readout_for x) f.
  Proof.
    intros Hi. destruct f; cbn [monitor_field readout_value readout_for ro_temperature ro_voltage ro_rx ro_bias ro_tx ro_aux1 ro_aux2 ro_aux3].
    - now apply number_u8.
    - now destruct (mo_temperature x).
    - now destruct (mo_supply_voltage x).
    - now destruct (mo_receiver_power x).
    - now destruct (mo_bias_current x).
    - now destruct (mo_transmitter_power x).
    - now destruct (aux am_aux1 x) as [[[]|]|].
    - now destruct (aux am_aux2 x) as [[]|].
    - now destruct (aux am_aux3 x) as [[]|].
  Qed.

  (** ** Lines *)
  Definition entry_line (e : text * text) : text := monitor_line (fst e) (Some (snd e)).
  Lemma block_lines port x b : port < 256 -> monitor_block show port x = Ok b ->
    b = (T "Port " ++ number_shown port) :: map entry_line (entries (readout_for x)).
  Proof.
    intros Hp. unfold monitor_block. destruct x as [t v rx bi tx ax]. cbn [mo_receiver_power].
    assert (L : forall n (o : option text), monitor_line n o = entry_line (n, or_dashes o)) by (intros n []; reflexivity).
    unfold entries. cbn [readout_for ro_temperature ro_voltage ro_rx ro_bias ro_tx ro_aux1 ro_aux2 ro_aux3
      mo_temperature mo_supply_voltage mo_receiver_power mo_bias_current mo_transmitter_power map].
    assert (A1 : forall o, monitor_line (fst (aux1_monitor_value show o)) (snd (aux1_monitor_value show o)) =
      entry_line (aux_entry (T "Aux 1") match o with
       | Some (Aux1TecCurrent c) => Some (T "TEC current (mA)", show c)
       | Some (Aux1Custom (a, b)) => Some (T "Custom", T "[0x" ++ hex02 a ++ T ",0x" ++ hex02 b ++ T "]")
       | None => None
       end)) by (intros [[[]|]|]; reflexivity).
    assert (A2 : forall o, monitor_line (fst (aux2_monitor_value show o)) (snd (aux2_monitor_value show o)) =
      entry_line (aux_entry (T "Aux 2") match o with
       | Some (Aux2TecCurrent c) => Some (T "TEC current (mA)", show c)
       | Some (Aux2LaserTemperature t) => Some (T "Laser temp (C)", show t)
       | None => None
       end)) by (intros [[]|]; reflexivity).
    assert (A3 : forall o, monitor_line (fst (aux3_monitor_value show o)) (snd (aux3_monitor_value show o)) =
      entry_line (aux_entry (T "Aux 3") match o with
       | Some (Aux3LaserTemperature t) => Some (T "Laser temp (C)", show t)
       | Some (Aux3AdditionalSupplyVoltage v) => Some (T "Supply voltage 2 (V)", show v)
       | None => None
       end)) by (intros [[]|]; reflexivity).
    destruct rx as [[|p l]|]; [discriminate| |]; cbn [obind]; intros [= <-]; rewrite number_u8 by exact Hp; rewrite A1, A2, A3;
      destruct t, v, bi, tx; try (destruct p); reflexivity.
  Qed.
  Lemma blocks_lines (Q : text -> Prop) : Q [] -> forall l nl out, monitor_blocks show nl l = Ok out ->
    (forall i x, In (i, x) l -> i < 256 /\ Q (T "Port " ++ number_shown i) /\ forall e, In e (entries (readout_for x)) -> Q (entry_line e)) ->
    Forall Q out.
  Proof.
    intros Q0. induction l as [|(i & x) l IH]; intros nl out; cbn [monitor_blocks]; [intros [= <-] _; constructor|].
    intros E H. destruct (monitor_block show i x) as [b|?|] eqn:Eb; [|discriminate|discriminate]. cbn [obind] in E.
    destruct (monitor_blocks show true l) as [t|?|] eqn:Et; [|discriminate|discriminate]. cbn [obind] in E. injection E as <-.
    destruct (H i x (or_introl eq_refl)) as (Hi & H1 & H2). apply block_lines in Eb; [|exact Hi]. subst b.
    apply Forall_app. split; [destruct nl; repeat constructor; exact Q0|]. apply Forall_app. split.
    - constructor; [exact H1|]. apply Forall_map, Forall_forall. exact H2.
    - apply (IH true t Et). intros j y Hj. apply H. now right.
  Qed.

  (** ** Plain values *)
  Context (Hs : forall x, plain (show x)).
  Lemma readout_plain mem i o f : readout_of show mem o -> plain (readout_value i o f).
  Proof.
    assert (N0 : plain []) by constructor.
    assert (W : forall w, plain (word_shown w)).
    { intros w. unfold word_shown. apply plain_app; [apply plainb_ok; reflexivity|]. apply plain_app; [apply plain_hex|].
      apply plain_app; [apply plainb_ok; reflexivity|]. apply plain_app; [apply plain_hex|apply plainb_ok; reflexivity]. }
    assert (P : forall ws, plain (powers_shown ws)) by (intros; apply plain_decimals).
    assert (B : forall k c ws t, opt_shown c (bias_shown k ws) t -> plain (field_of t)).
    { intros k c ws t. unfold opt_shown. destruct c; [|intros ->; exact N0]. intros (u & -> & l & -> & _). apply plain_decimals. }
    unfold readout_of. destruct (sff_kind (kind_of mem)).
    - intros (E1 & E2 & E3 & E4 & E5 & E6 & E7 & E8). destruct f; cbn [readout_value]; [apply plain_number|..];
        try (apply B in E4; exact E4); rewrite ?E1, ?E2, ?E3, ?E5, ?E6, ?E7, ?E8; unfold shown;
        repeat match goal with |- context [if ?b then _ else _] => destruct b end; cbn [option_map field_of snd]; auto.
    - intros (E1 & E2 & E3 & E4 & E5 & E6 & E7 & E8). destruct f; cbn [readout_value]; [apply plain_number|..];
        try (apply B in E4; exact E4); rewrite ?E1, ?E2, ?E3, ?E5, ?E6, ?E7, ?E8; unfold shown; cbv zeta;
        repeat match goal with |- context [if ?b then _ else _] => destruct b end; cbn [option_map field_of snd]; auto.
  Qed.
  Lemma entry_plain mem o e : readout_of show mem o -> In e (entries o) -> ~ In 10 (entry_line e).
  Proof.
    intros Ho He. assert (V : forall f, plain (readout_value 0 o f)) by (intros f; now apply (readout_plain mem)).
    assert (K : plain (fst e) /\ plain (snd e)).
    { pose proof (V FMonTemperature) as V1. pose proof (V FMonSupplyVoltage) as V2. pose proof (V FMonAverageRxPower) as V3.
      pose proof (V FMonTxBias) as V4. pose proof (V FMonTxPower) as V5. pose proof (V FMonAux1) as V6. pose proof (V FMonAux2) as V7.
      pose proof (V FMonAux3) as V8. cbn [readout_value] in *.
      assert (D : plain (T "--")) by (apply plainb_ok; reflexivity).
      assert (Br : forall t, plain t -> plain (in_brackets t)).
      { intros t Ht. unfold in_brackets. apply plain_app; [apply plainb_ok; reflexivity|]. apply plain_app; [exact Ht|apply plainb_ok; reflexivity]. }
      assert (A : forall name x, plain name -> plain (field_of (option_map snd x)) ->
        (forall n t, x = Some (n, t) -> plain n) -> plain (fst (aux_entry name x)) /\ plain (snd (aux_entry name x))).
      { intros name [[n t]|] Hn Hx Hl; cbn [aux_entry fst snd]; [|now split]. cbn in Hx. split; [|exact Hx].
        apply plain_app; [exact Hn|]. apply plain_app; [apply plainb_ok; reflexivity|]. exact (Hl n t eq_refl). }
      assert (L : forall x, (x = ro_aux1 o \/ x = ro_aux2 o \/ x = ro_aux3 o) -> forall n t, x = Some (n, t) -> plain n).
      { clear - Ho. intros x Hx n t E. apply plainb_ok. unfold readout_of in Ho. destruct (sff_kind (kind_of mem)).
        - destruct Ho as (_ & _ & _ & _ & _ & E6 & E7 & E8). rewrite E6, E7, E8 in Hx. intuition congruence.
        - destruct Ho as (_ & _ & _ & _ & _ & E6 & E7 & E8). rewrite E6, E7, E8 in Hx. clear E6 E7 E8. unfold shown in Hx. cbv zeta in Hx. subst x.
          repeat match type of Hx with context [if ?b then _ else _] => destruct b end;
            destruct Hx as [Hx|[Hx|Hx]]; try discriminate Hx; injection Hx as -> _; reflexivity. }
      unfold entries in He. cbn [In] in He.
      destruct He as [<-|[<-|[<-|[<-|[<-|[<-|[<-|[<-|[]]]]]]]]]; cbn [fst snd].
      - split; [apply plainb_ok; reflexivity|]. destruct (ro_temperature o); [exact V1|exact D].
      - split; [apply plainb_ok; reflexivity|]. destruct (ro_voltage o); [exact V2|exact D].
      - destruct (ro_rx o) as [[avg t]|]; cbn [fst snd]; (split; [apply plainb_ok; try destruct avg; reflexivity|]); [now apply Br|exact D].
      - split; [apply plainb_ok; reflexivity|]. destruct (ro_bias o); [now apply Br|exact D].
      - split; [apply plainb_ok; reflexivity|]. destruct (ro_tx o); [now apply Br|exact D].
      - apply A; [apply plainb_ok; reflexivity|exact V6|apply L; auto].
      - apply A; [apply plainb_ok; reflexivity|exact V7|apply L; auto].
      - apply A; [apply plainb_ok; reflexivity|exact V8|apply L; auto]. }
    destruct K as [K1 K2]. unfold entry_line, monitor_line, align_right. rewrite !in_app_iff.
    intros [X|[[X|X]|[X|X]]].
    - destruct X as [X|[X|[]]]; discriminate X.
    - apply repeat_spec in X. discriminate X.
    - revert X. apply plain_no; [exact K1|lia].
    - destruct X as [X|[X|[]]]; discriminate X.
    - revert X. apply plain_no; [exact K2|lia].
  Qed.
End Show.

Lemma rack_rows_map {P Q} m k (R : memory -> P -> Prop) (R' : memory -> Q -> Prop) (g : P -> Q) items :
  rack_rows m k R items -> (forall i mem x, In (i, x) items -> k i = inl mem -> R mem x -> R' mem (g x)) ->
  rack_rows m k R' (map (fun p => (fst p, g (snd p))) items).
Proof.
  unfold rack_rows. intros H. induction H as [|i [j x] l items (E & mem & K & HR) H IH]; intros G; [constructor|]. cbn [map fst snd] in *. subst j.
  constructor; [cbn [fst snd]; split; [reflexivity|]; exists mem; split; [exact K|]; apply (G i); [now left|exact K|exact HR]|].
  apply IH. intros i' mem' x' Hin. apply G. now right.
Qed.

Lemma monitors_print (show : f32 -> text) St (a : honest St) : honest_ok a -> forall (w : world St) m k,
  m < 2 ^ 64 -> reads_as a (w_sp w) (SpecQuery.shows k) ->
  all_modules m k (fun mem => supported_kind (kind_of mem) = true) -> bytes_rack k ->
  all_modules m k (fun mem => cmis_kind (kind_of mem) = true -> bias_scale (mem (cmis_up 1) 160) <> None) ->
  exists r items out, snd (monitors (honest_sp a) m w) = Ok r /\ rack_rows m k (readout_of show) items /\
    (forall k, print_monitors show r k = Ok (out k)) /\
    (forall h, exists bs, out (OutDefault h) = spaced bs /\ Forall2 block_of items bs) /\
    fields_split monitor_field_name readout_value items (fun h fs sep => out (OutParseable h fs sep)) /\
    ((forall x, plain (show x)) ->
      (forall i o f, In (i, o) items -> plain (readout_value i o f)) /\
      (forall h, whole_lines (out (OutDefault h))) /\
      (forall h fs sep, ~ In 10 sep -> whole_lines (out (OutParseable h fs sep)))).
Proof.
  intros Ha w m k Hm Hr Hk Hy Hb. destruct (monitors_rack a Ha w m k Hm Hr Hk Hy Hb) as (r & E & Ro).
  destruct (reads_out_reports m k monitors_of r Hm Ro) as (f & Rp & Ls & V).
  assert (M : forall i x, In (i, x) (told_ports m f) -> i < 64 /\ exists mem, byte_memory mem /\ readout_of show mem (readout_for show x) /\ has_lanes x).
  { intros i x Hi. apply told_in in Hi as (Hi & Hx & Hf). split; [exact Hi|]. destruct (V i x Hx Hf) as (mem & K & Hmon).
    assert (Hbm : byte_memory mem) by (specialize (Hy i); now rewrite K in Hy).
    exists mem. split; [exact Hbm|]. now apply monitors_readout. }
  set (items := told_ports m f) in *. set (ros := map (fun p => (fst p, readout_for show (snd p))) items).
  assert (Fb : Forall (fun p => fst p < 256 /\ has_lanes (snd p)) items).
  { apply Forall_forall. intros (i & x) Hi. destruct (M i x Hi) as (Hi' & mem & _ & _ & Hl). cbn [fst snd]. split; [lia|exact Hl]. }
  destruct (blocks_ok show items false Fb) as (bs & Eb & F2). cbn [app] in Eb.
  assert (It : result_iter r = items) by exact (told_iter m f r Hm Rp).
  set (par := fun h fs sep => (if h : bool then parseable_header monitor_field_name fs sep else []) ++
      match fs with [] => [] | _ => map (fun p => join sep (map (monitor_field show (fst p) (snd p)) fs)) items end).
  exists r, ros, (fun k => match k with OutDefault _ => spaced bs | OutParseable h fs sep => par h fs sep end).
  split; [exact E|]. split.
  { apply (rack_rows_map m k monitors_of); [exact Ls|]. intros i mem x Hi K Hx.
    assert (Hbm : byte_memory mem) by (specialize (Hy i); now rewrite K in Hy). now apply monitors_readout. }
  split.
  { intros [h|h fs sep]; unfold print_monitors; rewrite It; [exact Eb|]. reflexivity. }
  split.
  { intros h. exists bs. split; [reflexivity|]. unfold ros. clear - F2. revert bs F2. induction items as [|p l IH]; intros bs F; inversion F; subst; constructor; auto. }
  split.
  { intros c fs Hfs Hc.
    assert (F := table_fields [] monitor_field_name (fun _ _ => []) (monitor_field show) items (fun i x g => readout_value i (readout_for show x) g)).
    destruct (F (fun i x g Hi => field_value show i x g ltac:(destruct (M i x Hi); lia)) c fs Hfs) as (title & rows & F1 & F3 & F4 & F5).
    { intros i x g Hi Hg. apply Hc; [|exact Hg]. unfold ros. apply in_map_iff. exists (i, x). now split. }
    exists title, rows. split; [|split; [exact F3|split; [exact F4|exact F5]]].
    unfold ros. clear - F1. revert rows F1. induction items as [|p l IH]; intros rows F; inversion F; subst; constructor; auto. }
  intros Hs. split; [|split].
  - intros i o g Hi. unfold ros in Hi. apply in_map_iff in Hi as ((j & x) & [= <- <-] & Hi). destruct (M j x Hi) as (_ & mem & _ & Hro & _).
    now apply (readout_plain show Hs mem).
  - intros h. apply lines_whole. apply (blocks_lines show (fun l => ~ In 10 l) (fun x => x) items false); [exact Eb|].
    intros i x Hi. destruct (M i x Hi) as (Hi' & mem & _ & Hro & _). split; [lia|]. split.
    + apply plain_no; [|lia]. apply plain_app; [apply plainb_ok; reflexivity|apply plain_number].
    + intros e He. now apply (entry_plain show Hs mem (readout_for show x)).
  - intros h fs sep Hsep.
    apply lines_whole, (table_lines_parse [] monitor_field_name (fun _ _ => []) (monitor_field show) items h fs sep 10 Hsep).
    + intros g. apply plain_no; [apply plainb_ok; now destruct g|lia].
    + intros i x g Hi. destruct (M i x Hi) as (Hi' & mem & _ & Hro & _). rewrite field_value by lia. apply plain_no; [|lia].
      now apply (readout_plain show Hs mem).
Qed.
