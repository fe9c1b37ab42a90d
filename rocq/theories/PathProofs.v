(** Proofs about the printed datapaths (C67). *)
From Coq Require Import Lia String.
From Verif Require Import QueryProofs Tac SpecPath TableProofs TableProofs2 TableProofs3 CodeTextProofs.
Import ListNotations.
Open Scope N_scope.

(** ** Names *)
Lemma find_other_find x l : forall i e, find_other i l x = Some e ->
  exists k o, e = Other (i + k) x /\ nth_error l k = Some o /\ find (fun o => in_ranges x (snd o)) l = Some o.
Proof.
  induction l as [|(n & rs) l IH]; intros i e; cbn [find_other find snd]; [discriminate|].
  destruct (in_ranges x rs).
  - intros [= <-]. exists 0%nat, (n, rs). now rewrite Nat.add_0_r.
  - intros H. destruct (IH (S i) e H) as (k & o & -> & Hn & Hf). exists (S k), o. rewrite Nat.add_succ_r. auto.
Qed.
Lemma code_ok t b : In t all_tables -> b < 256 -> enum_display t (enum_of t b) = code_name t b.
Proof.
  intros Ht Hb. destruct (tables_lossless t b Ht Hb) as (e & He & _). unfold enum_of. rewrite He.
  unfold enum_from_u8 in He. unfold code_name. destruct (lookup b (et_named t)) eqn:El.
  - injection He as <-. cbn [enum_display]. now rewrite El.
  - destruct (find_other_find b _ _ _ He) as (k & o & -> & Hn & Hf). rewrite Hf. cbn [enum_display Nat.add]. rewrite Hn.
    destruct o as [n rs]. cbn [fst]. now rewrite hex_ok by exact Hb.
Qed.
Ltac table_in := unfold all_tables; cbn [In]; tauto.
Lemma ethernet_ok b : b < 256 -> eth_display b = ethernet_name b.
Proof.
  assert (H : forallb (fun b => if list_eq_dec N.eq_dec (eth_display b) (ethernet_name b) then true else false) (nrange 0 256) = true)
    by (vm_compute; reflexivity).
  intros Hb. rewrite forallb_forall in H. specialize (H b). destruct (list_eq_dec N.eq_dec _ _) as [E|E]; [exact E|].
  discriminate H. apply in_nrange. lia.
Qed.
Lemma state_ok n s : state_of_nibble n = Some s -> dps_display s = state_name n.
Proof.
  unfold state_of_nibble, state_name. destruct (n mod 8) as [|[[[]|[]|]|[[]|[]|]|]]; try discriminate; intros [= <-]; reflexivity.
Qed.
Lemma lanes_ok b : b < 256 -> lanes_text (255 - b) =
  join [44] (map (fun k => number_shown (k + 1)) (filter (fun k => negb (N.testbit b k)) [0; 1; 2; 3; 4; 5; 6; 7])).
Proof.
  assert (H : forallb (fun b => forallb (fun k => Bool.eqb (negb (N.land (255 - b) (2 ^ k) =? 0)) (negb (N.testbit b k))) (nrange 0 8))
                (nrange 0 256) = true) by (vm_compute; reflexivity).
  intros Hb. rewrite forallb_forall in H. specialize (H b ltac:(apply in_nrange; lia)). rewrite forallb_forall in H.
  unfold lanes_text. change [0; 1; 2; 3; 4; 5; 6; 7] with (nrange 0 8).
  assert (E : filter (fun bit => negb (N.land (255 - b) (2 ^ bit) =? 0)) (nrange 0 8) = filter (fun k => negb (N.testbit b k)) (nrange 0 8)).
  { apply filter_ext_in. intros k Hk. specialize (H k Hk). now apply eqb_prop in H. }
  rewrite E. f_equal. apply map_ext_in. intros k Hk. apply filter_In in Hk as [Hk _]. apply in_nrange in Hk. apply number_u8. lia.
Qed.

(** ** Tables *)
Lemma column_rows {A} (rows : list (text * (A -> text))) lanes head j k : nth_error lanes j = Some k ->
  column j (head :: map (fun row => fst row :: map (fun p => snd row p) lanes) rows) = Some (map (fun row => (fst row, snd row k)) rows).
Proof.
  intros Hj. unfold column. induction rows as [|(n & g) rows IH]; [reflexivity|]. cbn [map fold_right fst snd]. rewrite IH.
  rewrite nth_error_map, Hj. reflexivity.
Qed.
Lemma lane_table_ok {A B} (key : A -> B) (number : B -> N) (values : B -> list (text * text)) (rows : list (text * (A -> text))) (l : list A) :
  (forall x, In x l -> number (key x) < 256 /\ map (fun row => (fst row, snd row x)) rows = values (key x)) ->
  lane_table number values (map key l)
    (([] :: map (fun x => T "Lane " ++ show_u8 (number (key x))) l) :: map (fun row => fst row :: map (fun p => snd row p) l) rows).
Proof.
  intros H. split.
  - eexists. split.
    + f_equal. f_equal. rewrite map_map. apply map_ext_in. intros x Hx. destruct (H x Hx) as [Hn _]. now rewrite number_u8 by exact Hn.
    + apply Forall_map, Forall_forall. intros row _. cbn [List.length]. now rewrite !map_length.
  - intros j k Hj. rewrite nth_error_map in Hj. destruct (nth_error l j) as [x|] eqn:Ex; [|discriminate]. injection Hj as <-.
    rewrite (column_rows rows l _ j x Ex). f_equal. apply H. eapply nth_error_In; eassumption.
Qed.

(** ** Blocks *)
Lemma sff_block_ok mem i : byte_memory mem -> i < 256 ->
  sff_block mem i (print_sff8636_datapath i (enum_of tbl_ConnectorType (mem (sff_up 0) 130)) (sff_compliance_of mem)
                     (map (sff_lane_of mem) [0; 1; 2; 3])).
Proof.
  intros Hm Hi. unfold print_sff8636_datapath. eexists. split.
  - rewrite number_u8 by exact Hi. rewrite code_ok by (solve [table_in | apply Hm]). repeat f_equal.
    unfold sff_compliance_of. cbv zeta. destruct (mem (sff_up 0) 131 =? 128); cbn [compliance_display].
    + apply code_ok; [table_in|apply Hm].
    + apply ethernet_ok, Hm.
  - pose proof (@lane_table_ok N N (fun k => k) (fun k => k) (sff_values mem)
      (map (fun row => (fst row, fun k => bool_text (snd row (sff_lane_of mem k)))) sff_rows) [0; 1; 2; 3]) as H.
    rewrite map_id in H. apply H. intros k Hk. split; [|reflexivity]. cbn [In] in Hk. lia.
Qed.
Lemma cmis_values_ok nib mem k st : lane_with nib mem k = Some st ->
  map (fun row => (fst row, snd row st)) cmis_rows = cmis_values nib mem k.
Proof.
  unfold lane_with. destruct (state_of_nibble _) as [s|] eqn:Es; [|discriminate]. intros [= <-].
  unfold cmis_values. rewrite <- (state_ok _ _ Es). unfold cmis_rows, cmis_lane_of, if_supported, shown, truth.
  cbn [map fst snd ls_state ls_tx_input_polarity ls_tx_output_enabled ls_tx_auto_squelch_disable ls_tx_force_squelch
    ls_rx_output_polarity ls_rx_output_enabled ls_rx_auto_squelch_disable ls_rx_output_status ls_tx_output_status
    ls_tx_failure ls_tx_los ls_tx_lol ls_tx_adaptive_eq_fail ls_rx_los ls_rx_lol].
  repeat (f_equal; try (match goal with |- _ = (if ?b then _ else _) => destruct b end; try reflexivity;
     cbn [or_unsupported]; repeat match goal with |- context [if ?c then _ else _] => destruct c end; reflexivity));
  match goal with |- _ = (if ?b then _ else _) => destruct b end; reflexivity.
Qed.
Lemma in_keys {A} (l : list (N * A)) p : sorted_keys l -> In p l -> lookup (fst p) l = Some (snd p).
Proof. intros Hs Hp. apply in_lookup; [now apply DecodeProofs7.sorted_nodup|now destruct p]. Qed.
Lemma sorted_pred {A} (l : list (N * A)) : sorted_keys l -> (forall p, In p l -> 0 < fst p) ->
  StronglySorted N.lt (map (fun p => fst p - 1) l).
Proof.
  unfold sorted_keys. induction l as [|p l IH]; intros Hs Hp; [constructor|]. cbn [map] in *. inversion_clear Hs as [|? ? H1 H2].
  constructor; [apply IH; [exact H1|intros q Hq; apply Hp; now right]|].
  rewrite Forall_map in *. apply Forall_forall. intros q Hq. rewrite Forall_forall in H2. specialize (H2 q Hq).
  pose proof (Hp p (or_introl eq_refl)). lia.
Qed.
Lemma media_ok mem x d : byte_memory mem -> x < 256 -> Some d = media_of mem x -> media_display d = media_name mem x.
Proof.
  intros Hm Hx. unfold media_of, media_name. destruct (mem cmis_low 85) as [|[[[]|[]|]|[[]|[]|]|]]; try discriminate;
    intros [= ->]; cbn [media_display]; f_equal; (apply code_ok; [table_in|exact Hx]).
Qed.
Lemma cmis_block_ok mem i dps : byte_memory mem -> i < 256 -> datapath_map_of other_nibble mem dps ->
  (forall k, in_use mem k -> lane_with other_nibble mem k <> None) ->
  cmis_block other_nibble (fun mem => mem (cmis_up 0) 209) mem i
    (print_cmis_datapath i (enum_of tbl_ConnectorType (mem (cmis_up 0) 203)) (255 - mem (cmis_up 0) 209) dps).
Proof.
  intros Hm Hi (Hs & Ha & Hd) Hst. unfold print_cmis_datapath, cmis_block.
  exists (map fst dps). eexists (map _ dps). split.
  { rewrite number_u8 by exact Hi. rewrite code_ok by (solve [table_in | apply Hm]). f_equal. apply flat_map_concat_map. }
  split; [exact Hs|]. split; [exact Ha|].
  assert (G : forall p, In p dps -> lookup (fst p) dps = Some (snd p)) by (intros p Hp; now apply in_keys).
  assert (G' : forall p, In p dps -> exists k, in_use mem k /\ app_of mem k = fst p) by (intros p Hp; apply Ha; now apply in_map).
  assert (K : forall l, (forall p, In p l -> In p dps) -> Forall2 (application_block other_nibble (mem (cmis_up 0) 209) mem) (map fst l)
     (map (fun p => [Line (T "   Application ID: " ++ show_u8 (fst p));
                      Line (T "  Supported lanes: [" ++ lanes_text (255 - mem (cmis_up 0) 209) ++ T "]");
                      Line (T "   Host interface: " ++
                              enum_display tbl_HostElectricalInterfaceId (ap_host_id (cd_application (snd p))));
                      Line (T "  Media interface: " ++ media_display (ap_media_id (cd_application (snd p))))] ++
                     cmis_table (snd p) ++ [Line []]) l)); [|exact (K dps (fun p h => h))].
  induction l as [|(a & d) l IH]; intros Hl; [constructor|]. cbn [map]. constructor; [|apply IH; intros p Hp; apply Hl; now right].
  clear IH. specialize (G (a, d) (Hl _ (or_introl eq_refl))). specialize (G' (a, d) (Hl _ (or_introl eq_refl))). cbn [fst snd] in *.
  destruct (Hd a d G) as ((Dh & Dm & _) & Hk & Hln). destruct G' as (k0 & U0 & A0).
  assert (Hstat : forall p, In p (cd_lane_status d) -> exists k, fst p = k + 1 /\ in_use mem k /\ app_of mem k = a /\ lane_with other_nibble mem k = Some (snd p)).
  { intros p Hp. apply Hln. now apply in_keys. }
  assert (Hall : forall k, in_use mem k -> app_of mem k = a -> exists st, In (k + 1, st) (cd_lane_status d)).
  { intros k Hu Hap. destruct (lane_with other_nibble mem k) as [st|] eqn:E; [|now destruct (Hst k Hu)].
    exists st. apply lookup_in, Hln. eauto 6. }
  assert (Ap : a < 256). { rewrite <- A0. unfold app_of. apply N.div_lt_upper_bound; [lia|]. pose proof (Hm p11 (206 + k0)). lia. }
  assert (Ne : cd_lane_status d <> []). { destruct (Hall k0 U0 A0) as (st & Hin). intros E. now rewrite E in Hin. }
  eexists. exists (map (fun p => fst p - 1) (cd_lane_status d)). split.
  { assert (Ct : cmis_table d = [Table (([] :: map (fun p => T "Lane " ++ show_u8 (fst p)) (cd_lane_status d))
                 :: map (fun row => fst row :: map (fun p => snd row (snd p)) (cd_lane_status d)) cmis_rows)]).
    { unfold cmis_table. destruct (cd_lane_status d); [congruence|reflexivity]. }
    rewrite Ct. cbn [app].
    rewrite (number_u8 a Ap), lanes_ok by apply Hm. rewrite Dh, code_ok by (solve [table_in | apply Hm]).
    rewrite (media_ok mem _ _ Hm (Hm _ _) Dm).
    replace (82 + 4 * a + 0) with (82 + 4 * a) by lia. replace (82 + 4 * a + 1) with (83 + 4 * a) by lia. reflexivity. }
  split; [apply sorted_pred; [exact Hk|]; intros p Hp; destruct (Hstat p Hp) as (k & E & _); lia|].
  split; [destruct (cd_lane_status d); [congruence|discriminate]|].
  split.
  { intros k. rewrite in_map_iff. split.
    - intros (p & <- & Hp). destruct (Hstat p Hp) as (k & E & Hu & Hap & _). rewrite E. replace (k + 1 - 1) with k by lia. now split.
    - intros [Hu Hap]. destruct (Hall k Hu Hap) as (st & Hin). exists (k + 1, st). cbn [fst]. split; [lia|exact Hin]. }
  assert (Ls : cd_lane_status d = map (fun p => (fst p - 1 + 1, snd p)) (cd_lane_status d)).
  { rewrite <- map_id at 1. apply map_ext_in. intros p Hp. destruct (Hstat p Hp) as (k & E & _). destruct p as [n st]; cbn [fst snd] in *. f_equal. lia. }
  pose proof (@lane_table_ok (N * CmisLaneStatus) N (fun p => fst p - 1) (fun k => k + 1) (cmis_values other_nibble mem)
    (map (fun row => (fst row, fun p => snd row (snd p))) cmis_rows) (cd_lane_status d)) as H.
  assert (Hh : map (fun x : N * CmisLaneStatus => T "Lane " ++ show_u8 (fst x - 1 + 1)) (cd_lane_status d) =
               map (fun p => T "Lane " ++ show_u8 (fst p)) (cd_lane_status d)).
  { apply map_ext_in. intros p Hp. destruct (Hstat p Hp) as (k & E & _). f_equal. f_equal. lia. }
  cbv beta in H. rewrite Hh in H. apply H. intros p Hp. destruct (Hstat p Hp) as (k & E & (Hk8 & _) & _ & Hw). rewrite E.
  replace (k + 1 - 1) with k by lia. split; [lia|]. rewrite map_map. cbn [fst snd]. now apply cmis_values_ok.
Qed.

(** ** No text breaks a line *)
Definition clean (t : text) : Prop := ~ In 10 t.
Definition cleanb (t : text) : bool := forallb (fun c => negb (c =? 10)) t.
Lemma cleanb_ok t : cleanb t = true -> clean t.
Proof. unfold cleanb, clean. rewrite forallb_forall. intros H Hin. specialize (H 10 Hin). discriminate H. Qed.
Lemma clean_app s t : clean s -> clean t -> clean (s ++ t).
Proof. unfold clean. rewrite in_app_iff. tauto. Qed.
Lemma clean_u8 n : n < 256 -> clean (show_u8 n).
Proof. intros Hn. rewrite number_u8 by exact Hn. apply plain_no; [apply plain_number|lia]. Qed.
Lemma tables_clean : forallb (fun t => forallb (fun b => cleanb (enum_display t (enum_of t b))) (nrange 0 256)) all_tables = true.
Proof. vm_compute. reflexivity. Qed.
Lemma code_clean t b : In t all_tables -> b < 256 -> clean (enum_display t (enum_of t b)).
Proof.
  intros Ht Hb. apply cleanb_ok. pose proof tables_clean as H. rewrite forallb_forall in H. specialize (H t Ht).
  rewrite forallb_forall in H. apply H. apply in_nrange. lia.
Qed.
Lemma eth_clean b : b < 256 -> clean (eth_display b).
Proof.
  intros Hb. apply cleanb_ok. assert (H : forallb (fun b => cleanb (eth_display b)) (nrange 0 256) = true) by (vm_compute; reflexivity).
  rewrite forallb_forall in H. apply H. apply in_nrange. lia.
Qed.
Lemma lanes_clean n : clean (lanes_text n).
Proof.
  unfold lanes_text. apply plain_no; [|lia]. apply plain_join; [apply plainb_ok; reflexivity|]. apply Forall_map, Forall_forall.
  intros k Hk. apply filter_In in Hk as [Hk _]. apply in_nrange in Hk. rewrite number_u8 by lia. apply plain_number.
Qed.
Lemma row_clean row st : In row cmis_rows -> clean (fst row) /\ clean (snd row st).
Proof.
  assert (E : forall (p : text * (CmisLaneStatus -> text)), cleanb (fst p) = true -> cleanb (snd p st) = true -> clean (fst p) /\ clean (snd p st))
    by (intros; split; now apply cleanb_ok).
  destruct st as [s a b c d e f g h i j k l m n o]. unfold cmis_rows. cbn [In].
  intros H. repeat (destruct H as [<-|H]; [apply E; [reflexivity|]; cbn [snd ls_state ls_tx_input_polarity ls_tx_output_enabled ls_tx_auto_squelch_disable ls_tx_force_squelch
    ls_rx_output_polarity ls_rx_output_enabled ls_rx_auto_squelch_disable ls_rx_output_status ls_tx_output_status
    ls_tx_failure ls_tx_los ls_tx_lol ls_tx_adaptive_eq_fail ls_rx_los ls_rx_lol];
    match goal with
    | |- context [dps_display ?x] => destruct x; reflexivity
    | |- context [output_display ?x] => destruct x; reflexivity
    | |- context [or_unsupported _ ?x] => destruct x as [[]|]; reflexivity
    end|]). destruct H.
Qed.
Lemma sff_clean mem i t : byte_memory mem -> i < 256 ->
  In t (flat_map texts_of (print_sff8636_datapath i (enum_of tbl_ConnectorType (mem (sff_up 0) 130)) (sff_compliance_of mem)
                             (map (sff_lane_of mem) [0; 1; 2; 3]))) -> clean t.
Proof.
  intros Hm Hi H. unfold print_sff8636_datapath in H. cbn [flat_map texts_of app] in H. rewrite app_nil_r in H.
  destruct H as [<-|[<-|[<-|[<-|H]]]].
  - apply clean_app; [now apply cleanb_ok|now apply clean_u8].
  - apply clean_app; [now apply cleanb_ok|]. apply code_clean; [table_in|apply Hm].
  - apply clean_app; [now apply cleanb_ok|]. unfold sff_compliance_of. cbv zeta. destruct (_ =? _); cbn [compliance_display].
    + apply code_clean; [table_in|apply Hm].
    + apply eth_clean, Hm.
  - intros [].
  - apply in_concat in H as (row & [<-|H] & Ht).
    + destruct Ht as [<-|Ht]; [intros []|]. apply in_map_iff in Ht as (k & <- & Hk). apply in_nrange in Hk.
      apply clean_app; [now apply cleanb_ok|apply clean_u8; lia].
    + apply in_map_iff in H as (rw & <- & Hr). destruct Ht as [<-|Ht].
      * apply cleanb_ok. unfold sff_rows in Hr. cbn [In] in Hr. repeat (destruct Hr as [<-|Hr]; [reflexivity|]). destruct Hr.
      * apply in_map_iff in Ht as (ln & <- & _). apply cleanb_ok. now destruct (snd rw ln).
Qed.
Lemma cmis_clean mem i dps t : byte_memory mem -> i < 256 -> datapath_map_of other_nibble mem dps ->
  In t (flat_map texts_of (print_cmis_datapath i (enum_of tbl_ConnectorType (mem (cmis_up 0) 203)) (255 - mem (cmis_up 0) 209) dps)) -> clean t.
Proof.
  intros Hm Hi (Hs & Ha & Hd) H. unfold print_cmis_datapath in H. cbn [flat_map texts_of app] in H.
  destruct H as [<-|[<-|H]].
  - apply clean_app; [now apply cleanb_ok|now apply clean_u8].
  - apply clean_app; [now apply cleanb_ok|]. apply code_clean; [table_in|apply Hm].
  - apply in_flat_map in H as (x & Hx & Ht). apply in_flat_map in Hx as ((a & d) & Hp & Hx). cbn [fst snd] in Hx.
    pose proof (in_keys dps (a, d) Hs Hp) as G. cbn [fst snd] in G. destruct (Hd a d G) as ((Dh & Dm & _) & Hk & Hln).
    assert (Ap : a < 256).
    { destruct (proj1 (Ha a)) as (k0 & _ & <-); [now apply (in_map fst) in Hp|]. unfold app_of. apply N.div_lt_upper_bound; [lia|].
      pose proof (Hm p11 (206 + k0)). lia. }
    match type of Hx with In x (?a :: ?b :: ?c :: ?d :: ?l) => change (In x ([a; b; c; d] ++ l)) in Hx end.
    rewrite in_app_iff in Hx. destruct Hx as [Hx|Hx]; [|rewrite in_app_iff in Hx; destruct Hx as [Hx|Hx]].
    + cbn [In] in Hx. destruct Hx as [<-|[<-|[<-|[<-|[]]]]]; cbn [texts_of In] in Ht; destruct Ht as [<-|[]].
      * apply clean_app; [now apply cleanb_ok|now apply clean_u8].
      * apply clean_app; [now apply cleanb_ok|]. apply clean_app; [apply lanes_clean|now apply cleanb_ok].
      * apply clean_app; [now apply cleanb_ok|]. rewrite Dh. apply code_clean; [table_in|apply Hm].
      * apply clean_app; [now apply cleanb_ok|]. revert Dm. unfold media_of. cbv zeta.
        destruct (mem cmis_low 85) as [|[[[]|[]|]|[[]|[]|]|]]; try discriminate; intros [= ->]; cbn [media_display];
          (apply clean_app; [apply code_clean; [table_in|apply Hm]|now apply cleanb_ok]).
    + unfold cmis_table in Hx. destruct (cd_lane_status d) as [|p0 ps] eqn:El; [destruct Hx|].
      cbv beta match in Hx. rewrite <- El in *. clear El. destruct Hx as [<-|[]]. cbn [texts_of] in Ht.
      apply in_concat in Ht as (row & [<-|Hr] & Ht).
      * destruct Ht as [<-|Ht]; [intros []|]. apply in_map_iff in Ht as (p & <- & Hq).
        apply clean_app; [now apply cleanb_ok|]. apply clean_u8.
        destruct (proj1 (Hln (fst p) (snd p))) as (k & -> & (Hk8 & _) & _); [now apply in_keys|lia].
      * apply in_map_iff in Hr as (rw & <- & Hr). destruct Ht as [<-|Ht].
        -- now apply (row_clean rw (snd p0)).
        -- apply in_map_iff in Ht as (p & <- & _). now apply row_clean.
    + destruct Hx as [<-|[]]. destruct Ht as [<-|[]]. intros [].
Qed.

(** ** From the modules' memories to the screen *)
Definition path_text (i : N) (x : Datapath) : list printed_item :=
  match x with
  | DpSff connector specification lanes => print_sff8636_datapath i connector specification lanes
  | DpCmis connector supported_lanes datapaths => print_cmis_datapath i connector supported_lanes datapaths
  end.
Lemma paths_apart l : forall nl, print_paths nl l =
  (if nl then match l with [] => [] | _ => [Line []] end else []) ++ apart (map (fun p => path_text (fst p) (snd p)) l).
Proof.
  induction l as [|(i & x) l IH]; intros nl; [now destruct nl|]. cbn [print_paths map apart fst snd]. rewrite IH.
  fold (path_text i x). replace (match x with DpCmis c s d => print_cmis_datapath i c s d | DpSff c s l => print_sff8636_datapath i c s l end)
    with (path_text i x) by reflexivity.
  destruct l as [|p l]; cbn [map app]; destruct nl; cbn [app]; rewrite ?app_nil_r; reflexivity.
Qed.
Lemma apart_texts bs t : In t (flat_map texts_of (apart bs)) -> t = [] \/ exists b, In b bs /\ In t (flat_map texts_of b).
Proof.
  induction bs as [|b bs IH]; [intros []|]. cbn [apart]. destruct bs as [|c bs].
  - intros H. right. exists b. split; [now left|exact H].
  - rewrite flat_map_app. cbn [flat_map texts_of]. rewrite in_app_iff. cbn [app In].
    intros [H|[<-|H]]; [right; exists b; split; [now left|exact H]|now left|].
    destruct (IH H) as [->|(x & Hx & Ht)]; [now left|]. right. exists x. split; [now right|exact Ht].
Qed.

Lemma datapath_print St (a : honest St) : honest_ok a -> forall (w : world St) m k,
  m < 2 ^ 64 -> reads_as a (w_sp w) (SpecQuery.shows k) ->
  all_modules m k (fun mem => supported_kind (kind_of mem) = true) -> bytes_rack k -> all_modules m k datapath_sound ->
  exists r blocks, snd (datapath (honest_sp a) m w) = Ok r /\ print_datapath r = apart (map snd blocks) /\
    rack_rows m k (fun _ _ => True) blocks /\
    (forall i b, In (i, b) blocks -> exists mem, k i = inl mem /\ path_block other_nibble (fun mem => mem (cmis_up 0) 209) mem i b) /\
    (forall t, In t (flat_map texts_of (print_datapath r)) -> ~ In 10 t).
Proof.
  intros Ha w m k Hm Hr Hk Hy Hd. destruct (datapath_rack a Ha w m k Hm Hr Hk Hy Hd) as (r & E & Ro).
  destruct (reads_out_reports m k datapath_of r Hm Ro) as (f & Rp & Ls & V).
  assert (M : forall i x, In (i, x) (told_ports m f) -> i < 64 /\ exists mem, k i = inl mem /\ byte_memory mem /\ datapath_sound mem /\ datapath_of mem x).
  { intros i x Hi. apply told_in in Hi as (Hi & Hx & Hf). split; [exact Hi|]. destruct (V i x Hx Hf) as (mem & K & Hmon).
    assert (Hbm : byte_memory mem) by (specialize (Hy i); now rewrite K in Hy).
    exists mem. split; [exact K|]. split; [exact Hbm|]. split; [exact (Hd i mem Hx K)|exact Hmon]. }
  exists r, (map (fun p => (fst p, path_text (fst p) (snd p))) (told_ports m f)). split; [exact E|].
  assert (P : print_datapath r = apart (map (fun p => path_text (fst p) (snd p)) (told_ports m f))).
  { unfold print_datapath. rewrite (told_iter m f r Hm Rp). apply paths_apart. }
  split; [rewrite map_map; exact P|]. split.
  { unfold rack_rows in *. clear - Ls. induction Ls as [|i [j x] l items (Ej & mem & Km & _) H IH]; [constructor|]. cbn [map fst snd] in *.
    constructor; [split; [exact Ej|exists mem; now split]|exact IH]. }
  split.
  - intros i b Hin. apply in_map_iff in Hin as ((j & x) & [= <- <-] & Hin). destruct (M j x Hin) as (Hj & mem & K & Hb & Hs & Hx).
    exists mem. split; [exact K|]. unfold path_block. unfold datapath_of in Hx. cbn [fst snd].
    destruct (sff_kind (kind_of mem)) eqn:Es.
    + subst x. apply sff_block_ok; [exact Hb|lia].
    + destruct Hx as (dps & -> & Hx). apply cmis_block_ok; [exact Hb|lia|exact Hx|].
      destruct Hs as [Hs|(_ & _ & Hs)]; [congruence|exact Hs].
  - intros t Ht. rewrite P in Ht. apply apart_texts in Ht as [->|(b & Hb & Ht)]; [intros []|].
    apply in_map_iff in Hb as ((j & x) & <- & Hin). destruct (M j x Hin) as (Hj & mem & K & Hbm & Hs & Hx).
    unfold datapath_of in Hx. cbn [fst snd] in Ht. destruct (sff_kind (kind_of mem)) eqn:Es.
    + subst x. apply (sff_clean mem j); [exact Hbm|lia|exact Ht].
    + destruct Hx as (dps & -> & Hx). apply (cmis_clean mem j dps); [exact Hbm|lia|exact Hx|exact Ht].
Qed.
