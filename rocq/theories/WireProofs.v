(** Proofs about the layout of datagrams (C72). *)
From Verif Require Export SpecWire.
From Verif Require Import Tac Spec Wf CodecProofs MessageProofs ControllerProofs.
Import ListNotations.
Open Scope N_scope.

Local Transparent enc_u64 enc_u32 enc_u16 enc_u8 enc_ModuleId.
Lemma le_enc k n : le_value (enc_int k n) = n mod 256 ^ N.of_nat k.
Proof.
  revert n. induction k as [|k IH]; intros n.
  - cbn. now rewrite N.mod_1_r.
  - cbn [enc_int le_value fold_right]. fold (le_value (enc_int k (n / 256))). rewrite IH.
    rewrite Nat2N.inj_succ, N.pow_succ_r by lia. rewrite N.mod_mul_r by (try apply N.pow_nonzero; lia).
    reflexivity.
Qed.
Lemma enc_len k n : length (enc_int k n) = k.
Proof. revert n. induction k as [|k IH]; intros n; cbn; [reflexivity|]. now rewrite IH. Qed.
Lemma u64_here n r : n <? 2 ^ 64 = true -> le_value (firstn 8 (enc_u64 n ++ r)) = n.
Proof.
  intros H. unfold enc_u64. rewrite firstn_app, enc_len, Nat.sub_diag, firstn_O, app_nil_r.
  rewrite firstn_all2 by (rewrite enc_len; lia). rewrite le_enc. apply N.mod_small. now apply N.ltb_lt.
Qed.
Lemma u64_skip n r k : skipn (8 + k) (enc_u64 n ++ r) = skipn k r.
Proof.
  unfold enc_u64. rewrite skipn_app, enc_len. rewrite skipn_all2 by (rewrite enc_len; lia).
  replace (8 + k - 8)%nat with k by lia. reflexivity.
Qed.

Lemma byte_skip bs k j : byte_in bs (k + j) = byte_in (skipn k bs) j.
Proof.
  unfold byte_in. revert bs. induction k as [|k IH]; intros bs; [reflexivity|].
  destruct bs as [|b bs]; cbn; [now destruct j|]. apply IH.
Qed.
Lemma skip_skip {A} k j (bs : list A) : skipn (k + j) bs = skipn j (skipn k bs).
Proof.
  revert bs. induction k as [|k IH]; intros bs; [reflexivity|].
  destruct bs as [|b bs]; cbn; [now rewrite skipn_nil|]. apply IH.
Qed.
Lemma u64_skip_in bs k j : u64_in bs (k + j) = u64_in (skipn k bs) j.
Proof. unfold u64_in. now rewrite skip_skip. Qed.

Lemma header_skip h rest : skipn 10 (enc_header h ++ rest) = rest.
Proof.
  unfold enc_header, enc_u8. rewrite <- !app_assoc. cbn [app].
  change (skipn 10 (h_version h :: ?l)) with (skipn 9 l) || cbn [skipn].
  change 9%nat with (8 + 1)%nat. rewrite u64_skip. destruct (h_kind h); reflexivity.
Qed.
Lemma header_starts h rest : wf_header h = true -> starts_with_header (enc_header h ++ rest) h.
Proof.
  intros H. unfold wf_header in H. apply andb_true_iff in H. destruct H as [_ H].
  unfold enc_header, enc_u8. rewrite <- !app_assoc. cbn [app]. split; [reflexivity|]. split.
  - unfold u64_in. cbn [skipn]. now apply u64_here.
  - change 9%nat with (1 + 8)%nat. rewrite byte_skip. cbn [skipn]. change 8%nat with (8 + 0)%nat.
    rewrite byte_skip. rewrite (u64_skip _ _ 0 : skipn 8 _ = _). cbn [skipn]. destruct (h_kind h); reflexivity.
Qed.

Lemma page_codes_enc p : enc_page p = page_codes p.
Proof. destruct p as [[]|[|[[]]]]; reflexivity. Qed.
Lemma read_codes r : enc_read r = page_codes (rd_page r) ++ [rd_offset r; rd_len r].
Proof. unfold enc_read, enc_u8. now rewrite page_codes_enc. Qed.
Lemma write_codes r : enc_write r = page_codes (wr_page r) ++ [wr_offset r; wr_len r].
Proof. unfold enc_write, enc_u8. now rewrite page_codes_enc. Qed.

Lemma byte_body h rest k : byte_in (enc_header h ++ rest) (10 + k) = byte_in rest k.
Proof. now rewrite byte_skip, header_skip. Qed.
Lemma u64_body h rest k : u64_in (enc_header h ++ rest) (10 + k) = u64_in rest k.
Proof. now rewrite u64_skip_in, header_skip. Qed.
Lemma skip_body h rest k : skipn (10 + k) (enc_header h ++ rest) = skipn k rest.
Proof. now rewrite skip_skip, header_skip. Qed.
Lemma u64_next n r a b c : n <? 2 ^ 64 = true -> u64_in (a :: b :: c :: enc_u64 n ++ r) 3 = n.
Proof. exact (u64_here n r). Qed.
Lemma skip_next n r a b c k : skipn (11 + k) (a :: b :: c :: enc_u64 n ++ r) = skipn k r.
Proof. exact (u64_skip n r k). Qed.
Lemma interface_codes_enc i : enc_interface i = interface_codes i. Proof. destruct i; reflexivity. Qed.
Lemma led_codes_enc s : enc_led s = [led_code s]. Proof. destruct s; reflexivity. Qed.

Lemma request_layout h v q d : wf_header h = true -> wf_host_request q = true ->
  let bs := enc_header h ++ enc_message (mkMessage v (BHostRequest q)) ++ d in
  starts_with_header bs h /\ lays_out_request bs v q d.
Proof.
  intros Hh Hq bs. split; [now apply header_starts|]. unfold lays_out_request, bs.
  rewrite (byte_body h _ 0 : byte_in _ 10 = _), (byte_body h _ 1 : byte_in _ 11 = _), (byte_body h _ 2 : byte_in _ 12 = _).
  rewrite (skip_body h _ 3 : skipn 13 _ = _), (skip_body h _ 11 : skipn 21 _ = _), (u64_body h _ 3 : u64_in _ 13 = _).
  unfold enc_message, enc_body. cbn [msg_version msg_body]. unfold enc_u8. cbn [app].
  split; [reflexivity|]. split; [reflexivity|]. split; [destruct q; reflexivity|].
  destruct q; cbn [enc_host_request wf_host_request request_modules request_rest] in *; unfold enc_ModuleId; cbn [app];
    rewrite <- ?app_assoc;
    try (apply andb_true_iff in Hq; destruct Hq as [Hq _]);
    try (split; [now apply u64_next|]; rewrite (skip_next _ _ _ _ _ 0 : skipn 11 _ = _); cbn [skipn app];
         rewrite ?read_codes, ?write_codes, ?interface_codes_enc, ?led_codes_enc, <- ?app_assoc; reflexivity).
  reflexivity.
Qed.

Lemma u16_enc n : u16 n = true -> enc_u16 n = u16_codes n.
Proof.
  intros H. apply N.ltb_lt in H. unfold enc_u16, u16_codes. cbn [enc_int]. f_equal. f_equal.
  apply N.mod_small. apply N.div_lt_upper_bound; lia.
Qed.
Lemma u32_enc n : u32 n = true -> enc_u32 n = u32_codes n.
Proof.
  intros H. apply N.ltb_lt in H. unfold enc_u32, u32_codes. cbn [enc_int]. rewrite !N.div_div by lia.
  f_equal. f_equal. f_equal. f_equal. apply N.mod_small. apply N.div_lt_upper_bound; lia.
Qed.
Lemma mac_response_enc x : wf_mac_response x = true -> enc_mac_response x = mac_response_codes x.
Proof.
  destruct x as [a|e]; cbn [wf_mac_response enc_mac_response mac_response_codes]; unfold wf_mac_addrs, wf_bad_range;
    intros H; repeat (apply andb_true_iff in H; destruct H as [H ?]).
  - unfold enc_mac_addrs. rewrite u16_enc by assumption. reflexivity.
  - unfold enc_bad_range. rewrite u16_enc by assumption. destruct (br_reason e); reflexivity.
Qed.
Lemma error_enc e : wf_protocol_error e = true -> enc_protocol_error e = error_codes e.
Proof.
  destruct e; cbn [wf_protocol_error enc_protocol_error error_codes]; intros H; try reflexivity.
  apply andb_true_iff in H. destruct H. now rewrite !u32_enc.
Qed.

Lemma response_layout h v r d : wf_header h = true -> wf_sp_response r = true ->
  let bs := enc_header h ++ enc_message (mkMessage v (BSpResponse r)) ++ d in
  starts_with_header bs h /\ lays_out_response bs v r d.
Proof.
  intros Hh Hq bs. split; [now apply header_starts|]. unfold lays_out_response, bs.
  rewrite (byte_body h _ 0 : byte_in _ 10 = _), (byte_body h _ 1 : byte_in _ 11 = _), (byte_body h _ 2 : byte_in _ 12 = _).
  rewrite (skip_body h _ 3 : skipn 13 _ = _), (skip_body h _ 19 : skipn 29 _ = _), (u64_body h _ 3 : u64_in _ 13 = _),
    (u64_body h _ 11 : u64_in _ 21 = _).
  unfold enc_message, enc_body. cbn [msg_version msg_body]. unfold enc_u8. cbn [app].
  split; [reflexivity|]. split; [reflexivity|]. split; [destruct r; reflexivity|].
  destruct r; cbn [enc_sp_response wf_sp_response resp_modules resp_failed response_rest] in *; unfold enc_ModuleId; cbn [app];
    rewrite <- ?app_assoc.
  5: { cbn [skipn]. now rewrite mac_response_enc. }
  all: repeat (apply andb_true_iff in Hq; destruct Hq as [Hq ?]).
  all: split; [now apply u64_next|].
  all: unfold u64_in; rewrite (skip_next _ _ _ _ _ 0 : skipn 11 _ = _), (skip_next _ _ _ _ _ 8 : skipn 19 _ = _);
       rewrite skipn_O.
  all: split; [now apply u64_here|]; rewrite (u64_skip _ _ 0 : skipn 8 _ = _), skipn_O; cbn [app].
  all: rewrite ?read_codes, ?write_codes, <- ?app_assoc; reflexivity.
Qed.

Lemma error_layout h v e d : wf_header h = true -> wf_protocol_error e = true ->
  let bs := enc_header h ++ enc_message (mkMessage v (BError e)) ++ d in
  starts_with_header bs h /\ lays_out_error bs v e d.
Proof.
  intros Hh He bs. split; [now apply header_starts|]. unfold lays_out_error, bs.
  rewrite (byte_body h _ 0 : byte_in _ 10 = _), (byte_body h _ 1 : byte_in _ 11 = _), (skip_body h _ 2 : skipn 12 _ = _).
  unfold enc_message, enc_body. cbn [msg_version msg_body]. unfold enc_u8. cbn [app].
  split; [reflexivity|]. split; [reflexivity|]. cbn [skipn]. now rewrite error_enc.
Qed.

(** What a call sends. *)
Lemma sent_layout {St} (sp : St -> Rpc -> St * reply) q d (w : world St) :
  w_counter w < 2 ^ 64 -> wf_host_request q = true -> (length (data_bytes d) <= 1024)%nat ->
  exists r bs, w_log (fst (rpc sp q d w)) = w_log w ++ [ASend r] /\ request_packet r = Some bs /\
    starts_with_header bs (mkHeader 1 (w_counter w) KHostRequest) /\ lays_out_request bs 7 q (data_bytes d).
Proof.
  intros Hc Hq Hd. rewrite rpc_eq. eexists. eexists. split; [reflexivity|].
  assert (Hh : wf_header (mkHeader 1 (w_counter w) KHostRequest) = true)
    by (unfold wf_header; cbn; now apply N.ltb_lt).
  split; [|exact (request_layout _ 7 q (data_bytes d) Hh Hq)].
  unfold request_packet. cbn [rpc_header rpc_message rpc_data].
  rewrite (proj2 (Nat.leb_le _ _)); [reflexivity|].
  exact (proj2 (packet_fits _ _ _ Hd)).
Qed.

Lemma received_layout bs h rx v b rest : bytes bs = true ->
  dec_header bs = Some (h, rx) -> dec_message rx = Some (mkMessage v b, rest) ->
  starts_with_header bs h /\
  (forall r, b = BSpResponse r -> lays_out_response bs v r rest) /\
  (forall q, b = BHostRequest q -> lays_out_request bs v q rest) /\
  (forall e, b = BError e -> lays_out_error bs v e rest).
Proof.
  intros Hb Hh Hm. destruct (header_canonical _ _ _ Hb Hh) as (-> & Wh & Hr).
  destruct (message_canonical _ _ _ Hr Hm) as (-> & Wm & _).
  unfold wf_message in Wm. cbn in Wm. apply andb_true_iff in Wm. destruct Wm as [_ Wm].
  split; [now apply header_starts|]. split; [|split]; intros ? ->.
  - now apply response_layout.
  - now apply request_layout.
  - now apply error_layout.
Qed.

Lemma kind_layout m : nth_error (enc_message m) 1 = nth_error (enc_kind (message_kind m)) 0.
Proof. destruct m as [v [e|q|r|r|r]]; try reflexivity; destruct r. Qed.
