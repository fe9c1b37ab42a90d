(** Round-trip, canonicity and size of the wire format. *)
From Verif Require Import Tac Codec Wf.

Definition codec {A} (wf : A -> bool) (enc : A -> list N) (dec : decoder A) (max : nat) : Prop :=
  (forall x rest, wf x = true -> dec (enc x ++ rest) = Some (x, rest)) /\
  (forall bs x rest, bytes bs = true -> dec bs = Some (x, rest) ->
     bs = enc x ++ rest /\ wf x = true /\ bytes rest = true) /\
  (forall x, wf x = true -> bytes (enc x) = true) /\
  (forall x, (length (enc x) <= max)%nat).

Lemma bytes_app a b : bytes (a ++ b) = bytes a && bytes b.
Proof. apply forallb_app. Qed.

Lemma bytes_cons a b : bytes (a :: b) = u8 a && bytes b.
Proof. reflexivity. Qed.

Lemma codec_u8 : codec u8 enc_u8 dec_u8 1.
Proof.
  repeat split.
  - destruct bs as [|b r]; cbn in H0; [discriminate|]. now injection H0 as -> ->.
  - destruct bs as [|b r]; cbn in H0; [discriminate|]. injection H0 as -> ->.
    cbn in H. now apply andb_prop in H as [? _].
  - destruct bs as [|b r]; cbn in H0; [discriminate|]. injection H0 as -> ->.
    cbn in H. now apply andb_prop in H as [_ ?].
  - intros x H. cbn. now rewrite H.
  - cbn. lia.
Qed.

Lemma codec_le k : codec (fun n => n <? 256 ^ N.of_nat k) (enc_int k) (dec_int k) k.
Proof.
  induction k as [|k (IH1 & IH2 & IH3 & IH4)].
  - repeat split; cbn in *.
    + intros x rest H. assert (x = 0) as -> by (change (256 ^ N.of_nat 0) with 1 in H; lia).
      reflexivity.
    + now injection H0 as <- <-.
    + now injection H0 as <- <-.
    + now injection H0 as <- <-.
    + lia.
  - assert (Hp : 256 ^ N.of_nat (S k) = 256 * 256 ^ N.of_nat k).
    { rewrite Nat2N.inj_succ, N.pow_succ_r'. reflexivity. }
    repeat split.
    + intros x rest H. cbn. unfold dbind. cbn.
      rewrite IH1.
      2:{ rewrite Hp in H. apply N.ltb_lt in H. apply N.ltb_lt. apply N.div_lt_upper_bound; lia. }
      unfold dret. do 2 f_equal. pose proof (N.div_mod' x 256). lia.
    + cbn in H0. unfold dbind in H0. destruct bs as [|b r]; cbn in H0; [discriminate|].
      destruct (dec_int k r) as [[n r']|] eqn:E; [|discriminate].
      cbn in H. apply andb_prop in H as [Hb Hr].
      destruct (IH2 _ _ _ Hr E) as (-> & Hn & Hr').
      unfold dret in H0. injection H0 as <- <-. cbn. unfold u8 in Hb. apply N.ltb_lt in Hb.
      change (2 ^ 8) with 256 in Hb.
      replace ((b + 256 * n) mod 256) with b by lia.
      replace ((b + 256 * n) / 256) with n by lia. reflexivity.
    + cbn in H0. unfold dbind in H0. destruct bs as [|b r]; cbn in H0; [discriminate|].
      destruct (dec_int k r) as [[n r']|] eqn:E; [|discriminate].
      cbn in H. apply andb_prop in H as [Hb Hr].
      destruct (IH2 _ _ _ Hr E) as (-> & Hn & Hr').
      unfold dret in H0. injection H0 as <- <-. unfold u8 in Hb. apply N.ltb_lt in Hb.
      change (2 ^ 8) with 256 in Hb. apply N.ltb_lt in Hn. apply N.ltb_lt. rewrite Hp. nia.
    + cbn in H0. unfold dbind in H0. destruct bs as [|b r]; cbn in H0; [discriminate|].
      destruct (dec_int k r) as [[n r']|] eqn:E; [|discriminate].
      cbn in H. apply andb_prop in H as [Hb Hr].
      destruct (IH2 _ _ _ Hr E) as (-> & Hn & Hr').
      unfold dret in H0. now injection H0 as <- <-.
    + intros x H. cbn. apply andb_true_intro. split.
      * unfold u8. apply N.ltb_lt. change (2 ^ 8) with 256. apply N.mod_lt. lia.
      * apply IH3. rewrite Hp in H. apply N.ltb_lt in H. apply N.ltb_lt.
        apply N.div_lt_upper_bound; lia.
    + intros x. cbn. specialize (IH4 (x / 256)). lia.
Qed.

Lemma codec_u16 : codec u16 enc_u16 dec_u16 2.
Proof. exact (codec_le 2). Qed.
Lemma codec_u32 : codec u32 enc_u32 dec_u32 4.
Proof. exact (codec_le 4). Qed.
Lemma codec_u64 : codec u64 enc_u64 dec_u64 8.
Proof. exact (codec_le 8). Qed.
Lemma codec_ModuleId : codec u64 enc_ModuleId dec_ModuleId 8.
Proof. exact codec_u64. Qed.

(** Rewriting lemma for bind. *)
Lemma dbind_rt {A B} wf (enc : A -> list N) dec max (f : A -> decoder B) x tl :
  codec wf enc dec max -> wf x = true -> dbind dec f (enc x ++ tl) = f x tl.
Proof. intros (H & _) Hx. unfold dbind. now rewrite H. Qed.

Lemma dbind_u8 {B} (f : N -> decoder B) b tl : dbind dec_u8 f (b :: tl) = f b tl.
Proof. reflexivity. Qed.

Lemma dbind_inv {A B} (d : decoder A) (f : A -> decoder B) bs z :
  dbind d f bs = Some z -> exists a r, d bs = Some (a, r) /\ f a r = Some z.
Proof. unfold dbind. destruct (d bs) as [[a r]|]; [|discriminate]. eauto. Qed.

Lemma codec_canon {A} wf (enc : A -> list N) dec max : codec wf enc dec max ->
  forall bs x rest, bytes bs = true -> dec bs = Some (x, rest) ->
     bs = enc x ++ rest /\ wf x = true /\ bytes rest = true.
Proof. intros (_ & H & _). exact H. Qed.
Lemma codec_bytes {A} wf (enc : A -> list N) dec max : codec wf enc dec max ->
  forall x, wf x = true -> bytes (enc x) = true.
Proof. intros (_ & _ & H & _). exact H. Qed.
Lemma codec_len {A} wf (enc : A -> list N) dec max : codec wf enc dec max ->
  forall x, (length (enc x) <= max)%nat.
Proof. intros (_ & _ & _ & H). exact H. Qed.

Lemma enc_u8_cons x tl : enc_u8 x ++ tl = x :: tl.
Proof. reflexivity. Qed.

#[global] Opaque dec_u8 enc_u8 dec_u16 enc_u16 dec_u32 enc_u32 dec_u64 enc_u64 dec_ModuleId
  enc_ModuleId.

Create HintDb codecs discriminated.
#[global] Hint Resolve codec_u8 codec_u16 codec_u32 codec_u64 codec_ModuleId : codecs.

Ltac split_ands :=
  repeat match goal with
         | H : _ && _ = true |- _ => apply andb_prop in H as [? ?]
         end.
Ltac rt_step :=
  match goal with
  | |- context [(?a ++ ?b) ++ ?c] => rewrite <- (app_assoc a b c)
  | |- context [(?a :: ?b) ++ ?c] => change ((a :: b) ++ c) with (a :: (b ++ c))
  | |- context [[] ++ ?c] => change ([] ++ c) with c
  | |- dbind dec_u8 ?f (?b :: ?tl) = _ => rewrite (dbind_u8 f b tl)
  | |- dbind ?d ?f (?e ++ ?tl) = _ =>
      erewrite dbind_rt; [| eauto with codecs nocore | first [eassumption | reflexivity]]
  | |- (if ?a =? ?b then _ else _) _ = _ =>
      let v := eval vm_compute in (a =? b) in change (a =? b) with v; cbv iota
  | |- dret _ _ = _ => reflexivity
  end.
Ltac canon_step :=
  match goal with
  | H : dbind _ _ _ = Some _ |- _ =>
      apply dbind_inv in H; destruct H as (? & ? & ? & H)
  | H : dret _ _ = Some _ |- _ => unfold dret in H; injection H as ? ?; subst
  | H : dfail _ = Some _ |- _ => discriminate H
  | H : (if ?t =? ?k then _ else _) _ = Some _ |- _ =>
      destruct (N.eqb_spec t k); [subst t|]
  | H : ?d ?bs = Some (?x, ?rest), Hb : bytes ?bs = true |- _ =>
      let K := fresh in
      epose proof (codec_canon _ _ d _ ltac:(eauto with codecs nocore) bs x rest Hb H) as K;
      destruct K as (? & ? & ?); clear H Hb; subst bs
  end.
Ltac wf_done :=
  repeat match goal with |- _ && _ = true => apply andb_true_intro; split end;
  first [ assumption | reflexivity
        | cbn; repeat (apply andb_true_intro; split); (assumption || reflexivity) ].
Ltac bytes_step :=
  match goal with
  | |- bytes (_ ++ _) = true => rewrite bytes_app; apply andb_true_intro; split
  | |- bytes [] = true => reflexivity
  | |- true = true => reflexivity
  | |- forallb u8 ?l = true => change (bytes l = true)
  | |- _ && _ = true => apply andb_true_intro; split
  | |- bytes (_ :: _) = true => rewrite bytes_cons; apply andb_true_intro; split
  | |- u8 _ = true => assumption || (vm_compute; reflexivity)
  | |- bytes _ = true => eapply codec_bytes; [eauto with codecs nocore|first [eassumption | reflexivity]]
  end.
Ltac len_step :=
  cbn [length]; repeat rewrite app_length; cbn [length];
  repeat match goal with
         | |- context [length (?e ?x)] =>
             let K := fresh in
             epose proof (codec_len _ e _ _ ltac:(eauto with codecs nocore) x) as K;
             revert K; generalize (length (e x)); intros
         end;
  repeat match goal with
         | H : (_ <= ?m)%nat |- _ =>
             let v := eval vm_compute in m in progress (change m with v in H)
         end;
  match goal with
  | |- (_ <= ?m)%nat => let v := eval vm_compute in m in change m with v
  end; lia.
Ltac absurd_body :=
  try match goal with r : SpRequestBody |- _ => destruct r | r : HostResponseBody |- _ => destruct r end.
Ltac prove_codec :=
  split; [|split; [|split]];
  [ let x := fresh in let rest := fresh in let H := fresh in
    intros x rest H; destruct x; absurd_body;
    try match goal with u : CmisUpperPage |- _ => destruct u end; cbn in H; split_ands; repeat rt_step
  | let H := fresh in let Hb := fresh in
    intros ? ? ? Hb H; repeat canon_step; (split; [|split; [try wf_done|try assumption]]);
    repeat (rewrite <- app_assoc || rewrite enc_u8_cons); cbn [app];
    repeat (rewrite <- app_assoc || rewrite enc_u8_cons); reflexivity
  | let x := fresh in let H := fresh in
    intros x H; destruct x; absurd_body; cbn in H; split_ands; repeat bytes_step
  | let x := fresh in intros x; destruct x; absurd_body; len_step ].

Lemma codec_opt_u8 : codec wf_opt_u8 enc_opt_u8 dec_opt_u8 2.
Proof. unfold enc_opt_u8, dec_opt_u8, wf_opt_u8. prove_codec. Qed.
#[global] Hint Resolve codec_opt_u8 : codecs.

Lemma codec_interface : codec wf_interface enc_interface dec_interface 2.
Proof. unfold enc_interface, dec_interface, wf_interface. prove_codec. Qed.
#[global] Hint Resolve codec_interface : codecs.

Lemma codec_sff_page : codec wf_sff_page enc_sff_page dec_sff_page 2.
Proof. unfold enc_sff_page, dec_sff_page, wf_sff_page. prove_codec. Qed.
#[global] Hint Resolve codec_sff_page : codecs.

Lemma codec_cmis_page : codec wf_cmis_page enc_cmis_page dec_cmis_page 4.
Proof.
  unfold enc_cmis_page, dec_cmis_page, wf_cmis_page. prove_codec.
Qed.
#[global] Hint Resolve codec_cmis_page : codecs.

Lemma codec_page : codec wf_page enc_page dec_page 5.
Proof. unfold enc_page, dec_page, wf_page. prove_codec. Qed.
#[global] Hint Resolve codec_page : codecs.

Lemma codec_read : codec wf_read enc_read dec_read 7.
Proof. unfold enc_read, dec_read, wf_read. prove_codec. Qed.
Lemma codec_write : codec wf_write enc_write dec_write 7.
Proof. unfold enc_write, dec_write, wf_write. prove_codec. Qed.
#[global] Hint Resolve codec_read codec_write : codecs.

Lemma codec_mac : codec mac_ok enc_mac dec_mac 6.
Proof. unfold enc_mac, dec_mac, mac_bytes, mac_ok. prove_codec. Qed.
Lemma codec_reason : codec (fun _ => true) enc_reason dec_reason 1.
Proof. unfold enc_reason, dec_reason. prove_codec. Qed.
#[global] Opaque mac_ok.
#[global] Hint Resolve codec_mac codec_reason : codecs.
Lemma codec_bad_range : codec wf_bad_range enc_bad_range dec_bad_range 10.
Proof. unfold enc_bad_range, dec_bad_range, wf_bad_range. prove_codec. Qed.
Lemma codec_mac_addrs : codec wf_mac_addrs enc_mac_addrs dec_mac_addrs 9.
Proof. unfold enc_mac_addrs, dec_mac_addrs, wf_mac_addrs. prove_codec. Qed.
#[global] Hint Resolve codec_bad_range codec_mac_addrs : codecs.
Lemma codec_mac_response : codec wf_mac_response enc_mac_response dec_mac_response 11.
Proof. unfold enc_mac_response, dec_mac_response, wf_mac_response. prove_codec. Qed.
#[global] Hint Resolve codec_mac_response : codecs.

Lemma codec_protocol_error : codec wf_protocol_error enc_protocol_error dec_protocol_error 9.
Proof. unfold enc_protocol_error, dec_protocol_error, wf_protocol_error. prove_codec. Qed.
Lemma codec_kind : codec (fun _ => true) enc_kind dec_kind 1.
Proof. unfold enc_kind, dec_kind. prove_codec. Qed.
Lemma codec_led : codec (fun _ => true) enc_led dec_led 1.
Proof. unfold enc_led, dec_led. prove_codec. Qed.
#[global] Hint Resolve codec_protocol_error codec_kind codec_led : codecs.
Lemma codec_header : codec wf_header enc_header dec_header MAX_SIZE_header.
Proof. unfold enc_header, dec_header, wf_header. prove_codec. Qed.
Lemma codec_host_request :
  codec wf_host_request enc_host_request dec_host_request MAX_SIZE_host_request.
Proof. unfold enc_host_request, dec_host_request, wf_host_request. prove_codec. Qed.
Lemma codec_sp_response : codec wf_sp_response enc_sp_response dec_sp_response MAX_SIZE_sp_response.
Proof. unfold enc_sp_response, dec_sp_response, wf_sp_response. prove_codec. Qed.
#[global] Hint Resolve codec_host_request codec_sp_response : codecs.
Lemma codec_body : codec wf_body enc_body dec_body MAX_SIZE_body.
Proof. unfold enc_body, dec_body, wf_body. prove_codec. Qed.
#[global] Hint Resolve codec_body : codecs.
Lemma codec_message : codec wf_message enc_message dec_message MAX_SIZE_message.
Proof. unfold enc_message, dec_message, wf_message. prove_codec. Qed.
#[global] Hint Resolve codec_header codec_message : codecs.
