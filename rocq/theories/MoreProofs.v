(** Proofs for the additions to C07, C50, C52, C53, C58, C65 and C66. *)
From Coq Require Import String Lia.
From Verif Require Import CodecProofs MessageProofs CliProofs3 SpecMessages SpecMore.
Import ListNotations.
Open Scope N_scope.
Local Transparent mac_ok.

Definition a_read : MemoryRead := mkRead (PageCmis (CmisUpper (mkCmisUpper (Some 1) 0x11))) 154 8.
Lemma longest_all :
  longest wf_page enc_page MAX_SIZE_page /\ longest wf_read enc_read MAX_SIZE_read /\
  longest wf_protocol_error enc_protocol_error MAX_SIZE_protocol_error /\
  longest wf_host_request enc_host_request MAX_SIZE_host_request /\
  longest wf_mac_response enc_mac_response MAX_SIZE_mac_response /\
  longest wf_sp_response enc_sp_response MAX_SIZE_sp_response /\
  longest wf_body enc_body MAX_SIZE_body /\ longest wf_message enc_message MAX_SIZE_message /\
  longest wf_header enc_header MAX_SIZE_header.
Proof.
  repeat match goal with |- _ /\ _ => split end.
  - split; [intros x _; exact (codec_len _ _ _ _ codec_page x)|]. exists (PageCmis (CmisUpper (mkCmisUpper (Some 1) 0x11))). split; reflexivity.
  - split; [intros x _; exact (codec_len _ _ _ _ codec_read x)|]. exists a_read. split; reflexivity.
  - split; [intros x _; exact (codec_len _ _ _ _ codec_protocol_error x)|].
    exists (PeWrongDataSize 1 2). split; reflexivity.
  - split; [intros x _; exact (codec_len _ _ _ _ codec_host_request x)|]. exists (HRead 1 a_read). split; reflexivity.
  - split; [intros x _; exact (codec_len _ _ _ _ codec_mac_response x)|].
    exists (MacError (mkBadRange ZeroStrideOrCount (mkMac 1 2 3 4 5 6) 1 1)). split; reflexivity.
  - split; [intros x _; exact (codec_len _ _ _ _ codec_sp_response x)|]. exists (SRead 1 0 a_read). split; reflexivity.
  - split; [intros x _; exact (codec_len _ _ _ _ codec_body x)|]. exists (BSpResponse (SRead 1 0 a_read)). split; reflexivity.
  - split; [intros x _; exact (codec_len _ _ _ _ codec_message x)|].
    exists (mkMessage 7 (BSpResponse (SRead 1 0 a_read))). split; reflexivity.
  - split; [intros x _; exact (codec_len _ _ _ _ codec_header x)|]. exists (mkHeader 1 0 KSpResponse). split; reflexivity.
Qed.

Lemma last_app {A} (pick : setting -> option A) l s :
  last_of pick (l ++ [s]) = match pick s with Some x => Some x | None => last_of pick l end.
Proof.
  induction l as [|x l IH]; cbn [app last_of]; [now destruct (pick s)|]. rewrite IH. now destruct (pick s).
Qed.
Lemma settings_kept name l :
  fold_left make l (builder_new name) =
  mkBuilder name (last_of (fun s => match s with SetAddress a => Some a | _ => None end) l)
    (last_of (fun s => match s with SetPort p => Some p | _ => None end) l)
    (last_of (fun s => match s with SetPeer a => Some a | _ => None end) l)
    (last_of (fun s => match s with SetPeerPort p => Some p | _ => None end) l)
    (last_of (fun s => match s with SetRetryInterval t => Some t | _ => None end) l)
    (last_of (fun s => match s with SetRetries n => Some n | _ => None end) l).
Proof.
  induction l as [|s l IH] using rev_ind; [reflexivity|]. rewrite fold_left_app, IH, !last_app. cbn [fold_left].
  destruct s; reflexivity.
Qed.

Lemma names_all :
  names_fields power_field_name power_variant /\ names_fields ident_field_name ident_variant /\ names_fields vendor_field_name vendor_variant /\ names_fields model_field_name model_variant /\ names_fields led_field_name led_variant.
Proof. repeat split; first [intros []; reflexivity | intros [] []; reflexivity || discriminate]. Qed.
Lemma names_monitor : names_fields monitor_field_name monitor_variant.
Proof. split; [intros []; reflexivity|]. intros [] []; reflexivity || discriminate. Qed.
Lemma names_status r sep output : exists rows,
  print_module_status r false (SkParseable sep) output =
    Ok (join sep (map (fun f => kebab (status_variant f)) output) :: rows) /\
  print_module_status r true (SkParseable sep) output = Ok rows.
Proof.
  eexists. cbn [print_module_status app]. split; [|reflexivity]. do 2 f_equal. f_equal. apply map_ext. now intros [].
Qed.

Lemma pages_named p : pg_sff p = negb (pg_cmis p) -> (forall n bank, pg_upper p = Some (n, bank) -> n < 256) ->
  (forall g, args_page p = Ok g <-> page_named p g) /\ args_page p <> Panic.
Proof.
  destruct p as [sff cmis upper]. cbn [pg_sff pg_cmis pg_upper]. intros -> Hn. unfold args_page, page_named.
  cbn [pg_sff pg_cmis pg_upper]. destruct upper as [[n bank]|].
  - specialize (Hn n bank eq_refl). destruct cmis; cbn [negb upper_page].
    + assert (E : forall o, (forall u, o = Ok u <-> bank_fits n bank /\ u = mkCmisUpper bank n) -> o <> Panic ->
        (forall g, omap (fun u => PageCmis (CmisUpper u)) (omap_err error_of_mgmt o) = Ok g <->
           (false = true /\ sff_defined n /\ g = PageSff (SffUpper n)) \/
           (true = true /\ bank_fits n bank /\ g = PageCmis (CmisUpper (mkCmisUpper bank n)))) /\
        omap (fun u => PageCmis (CmisUpper u)) (omap_err error_of_mgmt o) <> Panic).
      { intros [u|e|] H Hp; cbn [omap omap_err]; [| |congruence].
        - split; [|discriminate]. intro g. destruct (proj1 (H u) eq_refl) as [Hf ->]. split.
          + intros [= <-]. now right.
          + intros [[? _]|(_ & _ & ->)]; [discriminate|reflexivity].
        - split; [|discriminate]. intro g. split; [discriminate|]. intros [[? _]|(_ & Hf & ->)]; [discriminate|].
          destruct (H (mkCmisUpper bank n)) as [_ G]. specialize (G (conj Hf eq_refl)). discriminate. }
      destruct bank as [b|]; cbn [bank_fits] in *; apply E; clear E.
      * destruct (cmis_new_banked_spec n b Hn) as (H1 & H2 & H3 & H4). intro u.
        destruct (cmis_new_banked n b) as [v|e|] eqn:G; split; try discriminate.
        -- intros [= <-]. unfold cmis_defined, cmis_banked in *.
           assert (D : n <= 4 \/ 16 <= n <= 63 \/ 159 <= n <= 255) by (destruct (N.le_gt_cases n 4); [lia|];
             destruct (N.le_gt_cases 16 n); destruct (N.le_gt_cases n 63); destruct (N.le_gt_cases 159 n);
             try lia; exfalso; assert (X : ~ (n <= 4 \/ 16 <= n <= 63 \/ 159 <= n <= 255)) by lia; specialize (H2 X); discriminate).
           assert (B : b <= 3) by (destruct (N.le_gt_cases b 3); [assumption|]; exfalso; specialize (H3 D ltac:(lia)); discriminate).
           assert (C : 16 <= n <= 63 \/ 159 <= n <= 175) by (
             destruct (N.le_gt_cases 16 n); destruct (N.le_gt_cases n 63); destruct (N.le_gt_cases 159 n);
             destruct (N.le_gt_cases n 175); try lia; exfalso; assert (X : ~ (16 <= n <= 63 \/ 159 <= n <= 175)) by lia; specialize (H4 D B X); discriminate).
           specialize (H1 D B C). injection H1 as ->. tauto.
        -- intros ((D & B & C) & ->). exact (H1 D B C).
        -- intros ((D & B & C) & ->). specialize (H1 D B C). discriminate.
        -- intros ((D & B & C) & ->). specialize (H1 D B C). discriminate.
      * unfold cmis_new_banked. repeat match goal with |- context [if ?c then _ else _] => destruct c end; discriminate.
      * destruct (cmis_new_unbanked_spec n Hn) as [H1 H2]. intro u. destruct (cmis_new_unbanked n) as [v|e|] eqn:G; split; try discriminate.
        -- intros [= <-]. unfold cmis_banked in *.
           assert (C : ~ (16 <= n <= 63 \/ 159 <= n <= 175)) by (intro C; specialize (H2 C); discriminate).
           specialize (H1 C). injection H1 as ->. tauto.
        -- intros (C & ->). exact (H1 C).
        -- intros (C & ->). specialize (H1 C). discriminate.
        -- intros (C & ->). specialize (H1 C). discriminate.
      * unfold cmis_new_unbanked. destruct (page_accepts_bank_number n); discriminate.
    + destruct (sff_upper_new_spec n Hn) as [H1 H2]. assert (D : sff_defined n \/ ~ sff_defined n) by (unfold sff_defined; lia).
      destruct D as [D|D].
      * rewrite (H1 D). cbn [omap omap_err]. split; [|discriminate]. intro g. split; [intros [= <-]; now left|].
        intros [(_ & _ & ->)|[? _]]; [reflexivity|discriminate].
      * rewrite (H2 D). cbn [omap omap_err]. split; [|discriminate]. intro g. split; [discriminate|].
        intros [(_ & ? & _)|[? _]]; [contradiction|discriminate].
  - destruct cmis; cbn [negb lower_page]; (split; [|discriminate]); intro g; split.
    + intros [= <-]. now right.
    + intros [[? _]|[_ ->]]; [discriminate|reflexivity].
    + intros [= <-]. now left.
    + intros [[_ ->]|[? _]]; [reflexivity|discriminate].
Qed.

Lemma known_bytes i k contents data :
  load_known_write_data (in_cap i) (in_chunk i) k contents = Ok data <-> says_bytes i k contents data.
Proof.
  destruct k; try (apply load_text; discriminate). rewrite load_binary. cbn [says_bytes]. split; congruence.
Qed.
Lemma data_taken i data :
  (forall k, in_kind i = Some k ->
     (args_data i = Ok data <-> exists contents, source i = Some contents /\ says_bytes i k contents data)) /\
  (forall f, in_kind i = None -> in_file i = Some f -> args_data i = Err tt) /\
  (forall t, in_kind i = None -> in_file i = None -> in_stdin i = utf8 t -> Forall scalar t -> two_bytes t ->
     (args_data i = Ok data <-> says_bytes i (announced_kind t) (utf8 t) data)).
Proof.
  unfold args_data, source. split; [|split].
  - intros k ->. destruct (in_file i) as [[c|]|]; cbn [load_write_data].
    + rewrite known_bytes. split; [eauto|]. now intros (x & [= <-] & H).
    + split; [discriminate|]. now intros (x & [=] & _).
    + rewrite known_bytes. split; [eauto|]. now intros (x & [= <-] & H).
  - intros [f|] -> ->; reflexivity.
  - intros t -> -> -> Ht Tw. rewrite (autodetect (in_cap i) (in_chunk i) t Ht Tw). apply known_bytes.
Qed.
