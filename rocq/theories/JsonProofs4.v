(** Proofs about readers of objects and about paths. *)
From Coq Require Import String Permutation SpecFloat.
From Verif Require Import ConfigProofs Tac SpecDecode DecodeProofs7 SpecJson JsonProofs JsonProofs2 JsonProofs3.
Import ListNotations.
Local Open Scope string_scope.
Local Open Scope N_scope.

Lemma fields_perm n l l' : Permutation l l' -> Permutation (fields n l) (fields n l').
Proof.
  intro H. unfold fields. apply Permutation_map. induction H as [|x l l' H IH|x y l|l l' l'' H1 IH1 H2 IH2]; cbn [filter].
  - constructor.
  - destruct (text_eqb _ _); [now constructor|exact IH].
  - destruct (text_eqb (fst x) _), (text_eqb (fst y) _); solve [apply perm_swap|apply Permutation_refl].
  - exact (Permutation_trans IH1 IH2).
Qed.
Lemma perm_cases {A} (l l' : list A) : Permutation l l' ->
  l = l' \/ exists a b r a' b' r', l = a :: b :: r /\ l' = a' :: b' :: r'.
Proof.
  intro H. destruct l as [|a [|b r]].
  - left. symmetry. now apply Permutation_nil.
  - left. symmetry. now apply Permutation_length_1_inv.
  - right. apply Permutation_length in H. destruct l' as [|a' [|b' r']]; try discriminate.
    exists a, b, r, a', b', r'. now split.
Qed.
Lemma required_perm {A} n (f : json -> option A) l l' : Permutation l l' -> required n f l = required n f l'.
Proof.
  intro H. unfold required. destruct (perm_cases _ _ (fields_perm n l l' H)) as [->|(a & b & r & a' & b' & r' & -> & ->)]; reflexivity.
Qed.
Lemma optional_perm {A} n (f : json -> option A) l l' : Permutation l l' -> optional n f l = optional n f l'.
Proof.
  intro H. unfold optional. destruct (perm_cases _ _ (fields_perm n l l' H)) as [->|(a & b & r & a' & b' & r' & -> & ->)]; reflexivity.
Qed.
Lemma fields_extra n t j l : t <> T n -> fields n ((t, j) :: l) = fields n l.
Proof.
  intro H. unfold fields. cbn [filter fst]. destruct (text_eqb t (T n)) eqn:E; [|reflexivity].
  apply text_eqb_eq in E. contradiction.
Qed.
Lemma required_extra {A} n (f : json -> option A) t j l : t <> T n -> required n f ((t, j) :: l) = required n f l.
Proof. intro H. unfold required. now rewrite fields_extra. Qed.
Lemma optional_extra {A} n (f : json -> option A) t j l : t <> T n -> optional n f ((t, j) :: l) = optional n f l.
Proof. intro H. unfold optional. now rewrite fields_extra. Qed.
Lemma required_missing {A} n (f : json -> option A) l : (forall j, ~ In (T n, j) l) -> required n f l = None.
Proof.
  intro H. unfold required, fields. replace (filter (fun e => text_eqb (fst e) (T n)) l) with (@nil (text * json)); [reflexivity|].
  symmetry. destruct (filter _ l) as [|[t j] r] eqn:E; [reflexivity|]. exfalso.
  assert (G : In (t, j) (filter (fun e => text_eqb (fst e) (T n)) l)) by (rewrite E; now left).
  apply filter_In in G. destruct G as [G1 G2]. cbn [fst] in G2. apply text_eqb_eq in G2. subst t. exact (H j G1).
Qed.
Lemma text_eqb_same t : text_eqb t t = true.
Proof. now apply text_eqb_eq. Qed.
Lemma fields_twice n l1 l2 l3 a b : exists x y r, fields n (l1 ++ (T n, a) :: l2 ++ (T n, b) :: l3) = x :: y :: r.
Proof.
  unfold fields. rewrite filter_app. cbn [filter fst]. rewrite text_eqb_same, filter_app. cbn [filter fst].
  rewrite text_eqb_same. rewrite !map_app. cbn [map snd]. rewrite !map_app. cbn [map snd].
  destruct (map snd (filter _ l1)) as [|x [|y r]]; cbn [app]; [|eauto|eauto].
  destruct (map snd (filter _ l2)); cbn [app]; eauto.
Qed.
Lemma required_twice {A} n (f : json -> option A) l1 l2 l3 a b :
  required n f (l1 ++ (T n, a) :: l2 ++ (T n, b) :: l3) = None.
Proof. unfold required. now destruct (fields_twice n l1 l2 l3 a b) as (x & y & r & ->). Qed.
Lemma optional_twice {A} n (f : json -> option A) l1 l2 l3 a b :
  optional n f (l1 ++ (T n, a) :: l2 ++ (T n, b) :: l3) = None.
Proof. unfold optional. now destruct (fields_twice n l1 l2 l3 a b) as (x & y & r & ->). Qed.

Ltac reader :=
  split; [|split; [|split; [|split]]];
  [ let l := fresh "l" in let l' := fresh "l'" in let H := fresh "H" in
    intros l l' H; cbn [of_object];
    repeat match goal with
           | |- context [required ?n ?f l] => rewrite (required_perm n f l l' H)
           | |- context [optional ?n ?f l] => rewrite (optional_perm n f l l' H)
           end; reflexivity
  | let t := fresh "t" in let j := fresh "j" in let l := fresh "l" in let H := fresh "H" in
    intros t j l H; cbn [of_object];
    repeat match goal with
           | |- context [required ?n ?f ((t, j) :: l)] =>
               rewrite (required_extra n f t j l) by (intros ->; apply H; cbn [map app In]; auto 20)
           | |- context [optional ?n ?f ((t, j) :: l)] =>
               rewrite (optional_extra n f t j l) by (intros ->; apply H; cbn [map app In]; auto 20)
           end; reflexivity
  | let n := fresh "n" in let l := fresh "l" in let Hn := fresh "Hn" in let H := fresh "H" in
    intros n l Hn H; cbn [of_object]; cbn [In] in Hn;
    repeat (destruct Hn as [<-|Hn]; [
      repeat match goal with |- (match ?e with _ => _ end) = None =>
        first [ rewrite (required_missing _ _ l H); reflexivity | destruct e; [|reflexivity] ] end |]); destruct Hn
  | let n := fresh "n" in let Hn := fresh "Hn" in
    intros n l1 l2 l3 a b Hn; cbn [of_object]; cbn [app In] in Hn;
    repeat (destruct Hn as [<-|Hn]; [
      repeat match goal with |- (match ?e with _ => _ end) = None =>
        first [ rewrite required_twice; reflexivity | rewrite optional_twice; reflexivity
              | destruct e; [|reflexivity] ] end |]); destruct Hn
  | intros [] H; try reflexivity; exfalso; eapply H; reflexivity ].

Lemma object_readers : all_object_readers.
Proof.
  unfold all_object_readers.
  split; [unfold vendor_info_of_json; reader|].
  split; [unfold vendor_of_json; reader|].
  split; [unfold monitors_of_json; reader|].
  split; [unfold aux_of_json; reader|].
  split; [unfold sff_of_json; reader|].
  split; [unfold cmis_of_json; reader|].
  split; [unfold cmis_datapath_of_json; reader|].
  split; [unfold app_of_json; reader|].
  split; [unfold sff_lane_of_json; reader|].
  unfold lane_of_json; cbv zeta; reader.
Qed.

(** ** Paths *)
Lemma vendor_at_paths v : vendor_paths v.
Proof. destruct v as [i [n [a b c] p r s [d|]]]; repeat split. Qed.

Lemma finite_number x : finite x -> float_json x = number x.
Proof. destruct x; intros []; reflexivity. Qed.
Lemma finite_numbers l : Forall finite l -> map float_json l = map number l.
Proof. intro H. apply map_ext_in. intros x Hx. rewrite Forall_forall in H. apply finite_number. now apply H. Qed.
Lemma skip_member {A} n (f : A -> json) o m l : T n <> m -> member m (skip_none n f o ++ l) = member m l.
Proof. intro H. destruct o as [x|]; [|reflexivity]. cbn [skip_none app member]. now destruct (list_eq_dec _ _ _). Qed.
Lemma the_member {A} n (f : A -> json) o l : member (T n) l = None -> member (T n) (skip_none n f o ++ l) = option_map f o.
Proof.
  intro H. destruct o as [x|]; [|exact H]. cbn [skip_none app member option_map].
  now destruct (list_eq_dec _ _ _).
Qed.
Lemma skip_member_last {A} n (f : A -> json) o m : T n <> m -> member m (skip_none n f o) = None.
Proof. intro H. destruct o as [x|]; [|reflexivity]. cbn [skip_none app member]. now destruct (list_eq_dec _ _ _). Qed.
Lemma the_member_last {A} n (f : A -> json) o : member (T n) (skip_none n f o) = option_map f o.
Proof. destruct o as [x|]; [|reflexivity]. cbn [skip_none member option_map]. now destruct (list_eq_dec _ _ _). Qed.
Lemma at_one n l : at_path [F n] (JObject l) = member (T n) l.
Proof. cbn [at_path]. now destruct (member (T n) l). Qed.
Ltac find_member :=
  rewrite ?at_one;
  repeat rewrite skip_member by discriminate;
  first [ apply the_member; repeat rewrite skip_member by discriminate; apply skip_member_last; discriminate
        | apply the_member_last ].
Lemma option_map_on {A B} (f g : A -> B) (P : A -> Prop) o : on P o -> (forall x, P x -> f x = g x) ->
  option_map f o = option_map g o.
Proof. intros H E. destruct o; [|reflexivity]. cbn. f_equal. now apply E. Qed.

Lemma monitors_at_paths m : good_monitors m -> monitor_paths m.
Proof.
  intros (H1 & H2 & H3 & H4 & H5 & H6). destruct m as [t v rp bc tp a].
  unfold monitor_paths, monitors_json. cbv zeta.
  cbn [mo_temperature mo_supply_voltage mo_receiver_power mo_bias_current mo_transmitter_power mo_aux] in *.
  split. { etransitivity; [find_member|]. apply (option_map_on _ _ finite); [exact H1|exact finite_number]. }
  split. { etransitivity; [find_member|]. apply (option_map_on _ _ finite); [exact H2|exact finite_number]. }
  split. { etransitivity; [find_member|]. apply (option_map_on _ _ (Forall good_power)); [exact H3|].
    intros l Hl. f_equal. apply map_ext_in. intros p Hp. rewrite Forall_forall in Hl. specialize (Hl p Hp).
    destruct p as [x|x]; cbn [power_json]; unfold variant; now rewrite (finite_number x Hl). }
  split. { etransitivity; [find_member|]. apply (option_map_on _ _ (Forall finite)); [exact H4|].
    intros l Hl. unfold floats_json. now rewrite finite_numbers. }
  split. { etransitivity; [find_member|]. apply (option_map_on _ _ (Forall finite)); [exact H5|].
    intros l Hl. unfold floats_json. now rewrite finite_numbers. }
  split. { intros ->. rewrite at_one. repeat rewrite skip_member by discriminate. reflexivity. }
  intros x ->. cbn [on] in H6.
  assert (E : forall n l, at_path [F "aux_monitors"; F n] (JObject (
     skip_none "temperature" float_json t ++ skip_none "supply_voltage" float_json v ++
     skip_none "receiver_power" (fun l => JArray (map power_json l)) rp ++
     skip_none "transmitter_bias_current" floats_json bc ++ skip_none "transmitter_power" floats_json tp ++
     skip_none "aux_monitors" aux_json (Some x))) = l <-> at_path [F n] (aux_json x) = l).
  { intros n l. cbn [at_path]. repeat rewrite skip_member by discriminate. rewrite the_member_last. reflexivity. }
  destruct x as [a1 a2 a3 c]. destruct H6 as (G1 & G2 & G3 & G4). cbn [am_aux1 am_aux2 am_aux3 am_custom] in *.
  split; [|split; [|split]]; apply E; unfold aux_json; cbn [am_aux1 am_aux2 am_aux3 am_custom].
  - etransitivity; [find_member|]. apply (option_map_on _ _ good_aux1); [exact G1|].
    intros [w|y] Hy; [reflexivity|]. cbn [aux1_json]. unfold variant. now rewrite (finite_number y Hy).
  - etransitivity; [find_member|]. apply (option_map_on _ _ good_aux2); [exact G2|].
    intros [y|y] Hy; cbn [aux2_json]; unfold variant; now rewrite (finite_number y Hy).
  - etransitivity; [find_member|]. apply (option_map_on _ _ good_aux3); [exact G3|].
    intros [y|y] Hy; cbn [aux3_json]; unfold variant; now rewrite (finite_number y Hy).
  - find_member.
Qed.

Lemma sff_at_paths c s lanes : sff_paths c s lanes.
Proof.
  unfold sff_paths. cbv zeta. split; [reflexivity|]. split; [reflexivity|].
  split; [now destruct s|]. split; [now destruct s|].
  assert (E : forall n p, at_path (F "sff8636" :: F "lanes" :: I n :: p) (datapath_json (DpSff c s lanes)) =
    match nth_error lanes n with Some x => at_path p (sff_lane_json x) | None => None end).
  { intros n p. change (match nth_error (map sff_lane_json lanes) n with Some x => at_path p x | None => None end =
      match nth_error lanes n with Some x => at_path p (sff_lane_json x) | None => None end).
    rewrite nth_error_map. now destruct (nth_error lanes n). }
  split; [intros n H; now rewrite E, H|]. intros n x H. repeat split; rewrite E, H; reflexivity.
Qed.

Lemma key_inj a b : a < 256 -> b < 256 -> key_text a = key_text b -> a = b.
Proof. intros Ha Hb H. pose proof (key_rt a Ha) as E. rewrite H, (key_rt b Hb) in E. congruence. Qed.
Lemma key_decimal a : a < 16 -> T (decimal a) = key_text a.
Proof.
  intro H. assert (S : forallb (fun a => text_eqb (T (decimal a)) (key_text a)) (nrange 0 16) = true) by (vm_compute; reflexivity).
  rewrite forallb_forall in S. apply text_eqb_eq. apply S. apply in_nrange. lia.
Qed.
Lemma member_map {A} (f : A -> json) m a : a < 16 -> Forall (fun e => fst e < 256) m ->
  member (T (decimal a)) (map (fun e => (key_text (fst e), f (snd e))) m) = option_map f (lookup a m).
Proof.
  intros Ha Hm. rewrite key_decimal by exact Ha. induction m as [|[k x] m IH]; [reflexivity|].
  inversion Hm as [|? ? Hk Hr]; subst. cbn [fst] in Hk. cbn [map fst snd member lookup].
  destruct (list_eq_dec _ _ _) as [E|E].
  - apply key_inj in E; [|exact Hk|lia]. subst k. now rewrite N.eqb_refl.
  - destruct (N.eqb_spec k a) as [->|]; [now contradiction E|]. destruct (N.eqb_spec a k); [congruence|]. now apply IH.
Qed.
Lemma good_keys {A} (P : A -> Prop) m : good_map P m -> Forall (fun e => fst e < 256) m.
Proof. intros [_ H]. revert H. apply Forall_impl. now intros e [H _]. Qed.

Lemma cmis_at_paths c lanes dps : good_datapath (DpCmis c lanes dps) -> cmis_paths c lanes dps.
Proof.
  intros (_ & _ & Hg). unfold cmis_paths. cbv zeta. split; [reflexivity|]. split; [reflexivity|]. split; [reflexivity|].
  assert (E : forall a p, a < 16 -> at_path (F "cmis" :: F "datapaths" :: F (decimal a) :: p) (datapath_json (DpCmis c lanes dps)) =
    match lookup a dps with Some d => at_path p (cmis_datapath_json d) | None => None end).
  { intros a p Ha. change (match member (T (decimal a)) (map (fun e => (key_text (fst e), cmis_datapath_json (snd e))) dps)
      with Some x => at_path p x | None => None end =
      match lookup a dps with Some d => at_path p (cmis_datapath_json d) | None => None end).
    rewrite member_map by (try exact Ha; exact (good_keys _ _ Hg)). now destruct (lookup a dps). }
  split; [intros a Ha H; now rewrite E, H|]. intros a d Ha H. cbn [app].
  assert (Hd : good_cmis d).
  { destruct Hg as [_ Hf]. clear E. induction dps as [|[k x] r IH]; [discriminate|].
    inversion Hf as [|? ? [_ Hx] Hr]; subst. cbn [lookup] in H. destruct (_ =? _); [injection H as <-; exact Hx|].
    now apply IH. }
  destruct Hd as [_ Hl].
  assert (G : forall n p, n < 16 -> at_path (F "lane_status" :: F (decimal n) :: p) (cmis_datapath_json d) =
    match lookup n (cd_lane_status d) with Some x => at_path p (lane_json x) | None => None end).
  { intros n p Hn. change (match member (T (decimal n)) (map (fun e => (key_text (fst e), lane_json (snd e))) (cd_lane_status d))
      with Some x => at_path p x | None => None end =
      match lookup n (cd_lane_status d) with Some x => at_path p (lane_json x) | None => None end).
    rewrite member_map by (try exact Hn; exact (good_keys _ _ Hl)). now destruct (lookup n (cd_lane_status d)). }
  rewrite !E, H by exact Ha.
  do 7 (split; [destruct (ap_media_id (cd_application d)) eqn:Em; unfold cmis_datapath_json, app_json, media_json;
    rewrite ?Em; reflexivity|]).
  split.
  - intros n Hn HN. rewrite E, H, G, HN by assumption. reflexivity.
  - intros n x Hn HN. unfold lane_paths. cbv zeta. cbn [app]. rewrite !E, H, !G, HN by assumption.
    destruct x as [st q1 q2 q3 q4 q5 q6 q7 q8 q9 r1 r2 r3 r4 r5 r6].
    split; [reflexivity|]. split; [destruct q1 as [[]|]; reflexivity|].
    split; [reflexivity|]. split; [reflexivity|]. split; [reflexivity|].
    split; [destruct q5 as [[]|]; reflexivity|].
    do 9 (split; [reflexivity|]). reflexivity.
Qed.

Lemma survive_at_paths :
  (forall id mem v, byte_memory mem -> decoded vendor_reads vendor_parse id mem = Ok v -> vendor_paths v) /\
  (forall id mem m, byte_memory mem -> decoded monitor_reads monitor_parse id mem = Ok m -> monitor_paths m) /\
  (forall id mem d, byte_memory mem -> decoded datapath_reads datapath_parse id mem = Ok d ->
     match d with DpCmis c n dps => cmis_paths c n dps | DpSff c s lanes => sff_paths c s lanes end).
Proof.
  split; [intros id mem v _ _; apply vendor_at_paths|].
  split; [intros id mem m Hm H; exact (monitors_at_paths m (decoded_monitors id mem m Hm H))|].
  intros id mem [c n dps|c s lanes] Hm H; [|apply sff_at_paths]. apply cmis_at_paths.
  apply (decoded_datapath id mem _ Hm H). intros (Hk & _).
  rewrite (sff_datapath_correct id mem Hk) in H. discriminate.
Qed.
Lemma nameless_unnamed id mem : nameless id mem <-> unnamed_compliance id mem.
Proof.
  unfold nameless, unnamed_compliance, named_ethernet, eth_names. generalize (mem (sff_up 0) 131). intro b.
  cbn [lookup In]. split.
  - intros (H1 & H2 & H3). split; [exact H1|]. intro H.
    repeat (destruct H as [<-|H]; [first [now apply H2|apply H3; cbn; discriminate]|]). exact H.
  - intros (H1 & H2). split; [exact H1|]. split; [intros ->; apply H2; auto 10|]. intro H.
    repeat match type of H with context [b =? ?k] =>
      destruct (N.eqb_spec b k) as [->|?]; [apply H2; auto 10|] end. now apply H.
Qed.
Lemma datapath_reads_back id mem d : byte_memory mem -> decoded datapath_reads datapath_parse id mem = Ok d ->
  (datapath_of_json (datapath_json d) = Some d <-> ~ unnamed_compliance id mem).
Proof. intros Hm H. rewrite <- nameless_unnamed. exact (datapath_survives id mem d Hm H). Qed.
Lemma datapath_reads_back_if id mem d : byte_memory mem -> decoded datapath_reads datapath_parse id mem = Ok d ->
  ~ unnamed_compliance id mem -> datapath_of_json (datapath_json d) = Some d.
Proof. intros Hm H. apply (datapath_reads_back id mem d Hm H). Qed.
Lemma unnamed_unreadable id mem : byte_memory mem -> unnamed_compliance id mem ->
  exists d, decoded datapath_reads datapath_parse id mem = Ok d /\ datapath_of_json (datapath_json d) = None.
Proof. intros Hm H. apply nameless_lost; [exact Hm|]. now apply nameless_unnamed. Qed.
