(** Proofs about JSON forms. *)
From Coq Require Import String SpecFloat Sorting.Sorted.
From Verif Require Import Json SpecDecode Tac CodeTextProofs ConfigProofs.
Import ListNotations.

(** What can be written so that it can be read back. *)
Definition finite (x : f32) : Prop := match x with S754_finite _ _ _ | S754_zero _ => True | _ => False end.

Lemma float_rt x : finite x -> float_of_json (float_json x) = Some x.
Proof. destruct x; cbn; intros []; reflexivity. Qed.
Lemma option_rt {A} (f : A -> json) (g : json -> option A) (P : A -> Prop) o :
  (forall x, P x -> g (f x) = Some x /\ f x <> JNull) -> (forall x, o = Some x -> P x) ->
  option_of_json g (option_json f o) = Some o.
Proof.
  intros H Ho. destruct o as [x|]; [|reflexivity]. cbn. destruct (H x (Ho x eq_refl)) as [H1 H2].
  unfold option_of_json. destruct (f x) eqn:E; try (exfalso; now apply H2); rewrite H1; reflexivity.
Qed.
Lemma sequence_rt {A} (f : A -> json) (g : json -> option A) l :
  Forall (fun x => g (f x) = Some x) l -> sequence (map g (map f l)) = Some l.
Proof. induction 1 as [|x l H _ IH]; cbn; [reflexivity|]. rewrite H, IH. reflexivity. Qed.
Lemma list_rt {A} (f : A -> json) (g : json -> option A) l :
  Forall (fun x => g (f x) = Some x) l -> list_of_json g (JArray (map f l)) = Some l.
Proof. exact (sequence_rt f g l). Qed.

Lemma key_rt n : n < 256 -> key_of_text (key_text n) = Some n.
Proof.
  intro H.
  assert (S : forallb (fun k => match key_of_text (key_text k) with Some m => m =? k | None => false end)
                (nrange 0 256) = true) by (vm_compute; reflexivity).
  rewrite forallb_forall in S. specialize (S n ltac:(apply in_nrange; lia)).
  destruct (key_of_text (key_text n)); [|discriminate]. f_equal. lia.
Qed.
Lemma entry_append {A} k (x : A) m : (forall n, In n (map fst m) -> n < k) -> entry_set k x m = m ++ [(k, x)].
Proof.
  unfold entry_set. induction m as [|[k' y] m IH]; intro H; [reflexivity|]. cbn [entry_update].
  pose proof (H k' (or_introl eq_refl)) as Hk.
  destruct (N.eqb_spec k k'); [lia|]. destruct (N.ltb_spec k k'); [lia|].
  cbn. f_equal. apply IH. intros q Hq. apply H. now right.
Qed.
Lemma entries_rt {A} (f : A -> json) (g : json -> option A) m : forall acc,
  Forall (fun e => fst e < 256 /\ g (f (snd e)) = Some (snd e)) m -> sorted_keys (acc ++ m) ->
  map_entries g (map (fun e => (key_text (fst e), f (snd e))) m) acc = Some (acc ++ m).
Proof.
  induction m as [|[k x] m IH]; intros acc H Hs; cbn [map map_entries].
  - now rewrite app_nil_r.
  - apply Forall_inv in H as H1. apply Forall_inv_tail in H as H2. destruct H1 as [H1 H3]. cbn [fst snd] in *.
    rewrite (key_rt k H1), H3. rewrite entry_append.
    + rewrite IH.
      * now rewrite <- app_assoc.
      * exact H2.
      * now rewrite <- app_assoc.
    + intros n Hn. unfold sorted_keys in Hs. rewrite map_app in Hs. cbn [map fst] in Hs.
      clear -Hs Hn. induction (map fst acc) as [|a l IHl]; [destruct Hn|].
      cbn [app] in Hs. apply StronglySorted_inv in Hs. destruct Hs as [Hs Ha]. destruct Hn as [<-|Hn].
      * rewrite Forall_forall in Ha. apply Ha. apply in_or_app. right. now left.
      * now apply IHl.
Qed.
Lemma map_rt {A} (f : A -> json) (g : json -> option A) m :
  Forall (fun e => fst e < 256 /\ g (f (snd e)) = Some (snd e)) m -> sorted_keys m ->
  map_of_json g (map_json f m) = Some m.
Proof. intros H Hs. exact (entries_rt f g m [] H Hs). Qed.

(** Values decoded from bytes. *)
Definition from_byte (t : enum_table) (e : benum) : Prop := exists x, x < 256 /\ enum_from_u8 t x = Some e.
Lemma enum_rt t e : In t all_tables -> from_byte t e -> enum_of_json t (enum_json t e) = Some e.
Proof.
  intros Ht (x & Hx & He). destruct (tables_lossless t x Ht Hx) as (e' & H1 & _ & H2). cbn.
  congruence.
Qed.
Lemma enum_of_from_byte t x : In t all_tables -> x < 256 -> from_byte t (enum_of t x).
Proof.
  intros Ht Hx. destruct (tables_lossless t x Ht Hx) as (e & H1 & _). exists x. split; [exact Hx|].
  unfold enum_of. now rewrite H1.
Qed.
Lemma dps_rt s : dps_of_json (dps_json s) = Some s.
Proof. destruct s; vm_compute; reflexivity. Qed.
Lemma u8_rt n : n < 256 -> u8_of_json (JInt n) = Some n.
Proof. intro H. cbn. apply N.ltb_lt in H. now rewrite H. Qed.

Lemma oui_rt o : oui0 o < 256 -> oui1 o < 256 -> oui2 o < 256 -> oui_of_json (oui_json o) = Some o.
Proof.
  destruct o as [a b c]. cbn [oui0 oui1 oui2]. intros Ha Hb Hc. unfold oui_of_json, oui_json, list_of_json.
  cbn [map oui0 oui1 oui2]. rewrite !u8_rt by assumption. reflexivity.
Qed.

Lemma required_eq {A} n (f : json -> option A) l j : fields n l = [j] -> required n f l = f j.
Proof. unfold required. now intros ->. Qed.
Lemma optional_eq {A} n (f : json -> option A) l j : fields n l = [j] -> optional n f l = option_of_json f j.
Proof. unfold optional. now intros ->. Qed.
Ltac read_field H :=
  lazymatch goal with
  | |- match ?e with Some _ => _ | None => None end = _ =>
      lazymatch e with
      | required ?n ?f ?l => erewrite (required_eq n f l) by reflexivity; cbn [snd]; rewrite H; cbv beta iota
      | optional ?n ?f ?l => erewrite (optional_eq n f l) by reflexivity; cbn [snd]; rewrite H; cbv beta iota
      end
  end.

Lemma text_rt s : text_of_json (JString s) = Some s.
Proof. reflexivity. Qed.
Lemma opt_text_rt o : option_of_json text_of_json (option_json JString o) = Some o.
Proof. destruct o; reflexivity. Qed.
Lemma vendor_rt v : oui0 (v_oui v) < 256 -> oui1 (v_oui v) < 256 -> oui2 (v_oui v) < 256 ->
  vendor_of_json (vendor_json v) = Some v.
Proof.
  intros Ha Hb Hc. pose proof (oui_rt _ Ha Hb Hc) as Ho. destruct v as [n o p r s d]. cbn [v_oui] in *.
  unfold vendor_json, vendor_of_json, of_object. cbn [v_name v_oui v_part v_revision v_serial v_date].
  read_field text_rt. read_field Ho. read_field text_rt. read_field text_rt. read_field text_rt.
  read_field opt_text_rt. reflexivity.
Qed.
Definition good_vendor (v : VendorInfo) : Prop :=
  from_byte tbl_Identifier (vi_identifier v) /\
  oui0 (v_oui (vi_vendor v)) < 256 /\ oui1 (v_oui (vi_vendor v)) < 256 /\ oui2 (v_oui (vi_vendor v)) < 256.
Ltac in_tables := unfold all_tables; repeat (first [left; reflexivity | right]).
Lemma vendor_info_rt v : good_vendor v -> vendor_info_of_json (vendor_info_json v) = Some v.
Proof.
  intros (Hi & Ha & Hb & Hc). pose proof (vendor_rt _ Ha Hb Hc) as Hv.
  assert (He := enum_rt tbl_Identifier _ ltac:(in_tables) Hi). destruct v as [i v]. cbn [vi_identifier vi_vendor] in *.
  unfold vendor_info_json, vendor_info_of_json, of_object. cbn [vi_identifier vi_vendor].
  read_field He. read_field Hv. reflexivity.
Qed.

(** Receiver powers and auxiliary monitors. *)
Definition good_power (p : ReceiverPower) : Prop := match p with Average x | PeakToPeak x => finite x end.
Lemma power_rt p : good_power p -> power_of_json (power_json p) = Some p.
Proof.
  destruct p as [x|x]; intro H.
  - change (option_map Average (float_of_json (float_json x)) = Some (Average x)). now rewrite float_rt.
  - change (option_map PeakToPeak (float_of_json (float_json x)) = Some (PeakToPeak x)). now rewrite float_rt.
Qed.
Definition good_word (w : word) : Prop := fst w < 256 /\ snd w < 256.
Lemma word_rt w : good_word w -> word_of_json (word_json w) = Some w.
Proof.
  destruct w as [a b]. intros [Ha Hb]. cbn [fst snd] in *. unfold word_of_json, word_json, list_of_json.
  cbn [map fst snd]. rewrite !u8_rt by assumption. reflexivity.
Qed.
Definition good_aux1 (a : Aux1Monitor) : Prop := match a with Aux1Custom w => good_word w | Aux1TecCurrent x => finite x end.
Lemma aux1_rt a : good_aux1 a -> aux1_of_json (aux1_json a) = Some a.
Proof.
  destruct a as [w|x]; intro H.
  - change (option_map Aux1Custom (word_of_json (word_json w)) = Some (Aux1Custom w)). now rewrite word_rt.
  - change (option_map Aux1TecCurrent (float_of_json (float_json x)) = Some (Aux1TecCurrent x)). now rewrite float_rt.
Qed.
Definition good_aux2 (a : Aux2Monitor) : Prop := match a with Aux2LaserTemperature x | Aux2TecCurrent x => finite x end.
Lemma aux2_rt a : good_aux2 a -> aux2_of_json (aux2_json a) = Some a.
Proof.
  destruct a as [x|x]; intro H.
  - change (option_map Aux2LaserTemperature (float_of_json (float_json x)) = Some (Aux2LaserTemperature x)). now rewrite float_rt.
  - change (option_map Aux2TecCurrent (float_of_json (float_json x)) = Some (Aux2TecCurrent x)). now rewrite float_rt.
Qed.
Definition good_aux3 (a : Aux3Monitor) : Prop :=
  match a with Aux3LaserTemperature x | Aux3AdditionalSupplyVoltage x => finite x end.
Lemma aux3_rt a : good_aux3 a -> aux3_of_json (aux3_json a) = Some a.
Proof.
  destruct a as [x|x]; intro H.
  - change (option_map Aux3LaserTemperature (float_of_json (float_json x)) = Some (Aux3LaserTemperature x)). now rewrite float_rt.
  - change (option_map Aux3AdditionalSupplyVoltage (float_of_json (float_json x)) = Some (Aux3AdditionalSupplyVoltage x)). now rewrite float_rt.
Qed.

(** A field that is left out when there is nothing. *)
Lemma fields_app n l l' : fields n (l ++ l') = fields n l ++ fields n l'.
Proof. unfold fields. now rewrite filter_app, map_app. Qed.
Lemma fields_skip {A} n m (f : A -> json) o :
  fields n (skip_none m f o) = if text_eqb (T m) (T n) then match o with Some x => [f x] | None => [] end else [].
Proof. destruct o as [x|]; cbn; destruct (text_eqb (T m) (T n)); reflexivity. Qed.
Definition on {A} (P : A -> Prop) (o : option A) : Prop := match o with Some x => P x | None => True end.
Lemma optional_rt {A} (f : A -> json) (g : json -> option A) (o : option A) n l :
  fields n l = match o with Some x => [f x] | None => [] end ->
  on (fun x => g (f x) = Some x /\ f x <> JNull) o -> optional n g l = Some o.
Proof.
  intros Hf Ho. unfold optional. rewrite Hf. destruct o as [x|]; [|reflexivity]. destruct Ho as [H1 H2].
  unfold option_of_json. destruct (f x) eqn:E; try (exfalso; now apply H2); rewrite H1; reflexivity.
Qed.
Lemma float_not_null x : finite x -> float_json x <> JNull.
Proof. destruct x; cbn; intros []; discriminate. Qed.

Definition good_aux (a : AuxMonitors) : Prop :=
  on good_aux1 (am_aux1 a) /\ on good_aux2 (am_aux2 a) /\ on good_aux3 (am_aux3 a) /\ on good_word (am_custom a).
Ltac the_field := rewrite ?fields_app, ?fields_skip; cbn -[float_json floats_json power_json aux_json aux1_json aux2_json aux3_json word_json];
  rewrite ?app_nil_r; reflexivity.
Ltac read_optional f :=
  lazymatch goal with
  | |- match optional ?n ?g ?l with Some _ => _ | None => None end = _ =>
      erewrite (optional_rt f g _ n l); [cbv beta iota|the_field|]
  end.
Lemma aux_rt a : good_aux a -> aux_of_json (aux_json a) = Some a.
Proof.
  intros (H1 & H2 & H3 & H4). destruct a as [a1 a2 a3 c]. cbn [am_aux1 am_aux2 am_aux3 am_custom] in *.
  unfold aux_json, aux_of_json, of_object. cbn [am_aux1 am_aux2 am_aux3 am_custom].
  read_optional aux1_json. read_optional aux2_json. read_optional aux3_json. read_optional word_json.
  - reflexivity.
  - destruct c; [|exact I]. split; [now apply word_rt|discriminate].
  - destruct a3 as [x|]; [|exact I]. split; [now apply aux3_rt|destruct x; discriminate].
  - destruct a2 as [x|]; [|exact I]. split; [now apply aux2_rt|destruct x; discriminate].
  - destruct a1 as [x|]; [|exact I]. split; [now apply aux1_rt|destruct x; discriminate].
Qed.

Definition good_monitors (m : Monitors) : Prop :=
  on finite (mo_temperature m) /\ on finite (mo_supply_voltage m) /\
  on (Forall good_power) (mo_receiver_power m) /\ on (Forall finite) (mo_bias_current m) /\
  on (Forall finite) (mo_transmitter_power m) /\ on good_aux (mo_aux m).
Lemma floats_rt l : Forall finite l -> list_of_json float_of_json (floats_json l) = Some l.
Proof. intro H. apply list_rt. revert H. apply Forall_impl. exact float_rt. Qed.
Lemma monitors_rt m : good_monitors m -> monitors_of_json (monitors_json m) = Some m.
Proof.
  intros (H1 & H2 & H3 & H4 & H5 & H6). destruct m as [t v rp bc tp a].
  cbn [mo_temperature mo_supply_voltage mo_receiver_power mo_bias_current mo_transmitter_power mo_aux] in *.
  unfold monitors_json, monitors_of_json, of_object.
  cbn [mo_temperature mo_supply_voltage mo_receiver_power mo_bias_current mo_transmitter_power mo_aux].
  read_optional float_json. read_optional float_json. read_optional (fun l => JArray (map power_json l)).
  read_optional floats_json. read_optional floats_json. read_optional aux_json.
  - reflexivity.
  - destruct a; [|exact I]. split; [now apply aux_rt|discriminate].
  - destruct tp; [|exact I]. split; [now apply floats_rt|discriminate].
  - destruct bc; [|exact I]. split; [now apply floats_rt|discriminate].
  - destruct rp; [|exact I]. split; [|discriminate]. apply list_rt. revert H3. apply Forall_impl. exact power_rt.
  - destruct v; [|exact I]. split; [now apply float_rt|now apply float_not_null].
  - destruct t; [|exact I]. split; [now apply float_rt|now apply float_not_null].
Qed.
