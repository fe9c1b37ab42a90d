(** Proofs for the queries for decoded module data (C64). *)
From Verif Require Export SpecQuery.
From Verif Require Import Tac DecodeProofs DecodeProofs2 DecodeProofs3 DecodeProofs4 DecodeProofs7 DecodeProofs8
  DecodeProofs9 ControllerProofs9.

Section Generic.
  Context {P : Type} (reads : Identifier -> outcome DecodeError (list MemoryRead))
          (parse : Identifier -> list (list N) -> outcome DecodeError P) (k : rack) (m : N).
  Lemma gather_rack i mem rds : k i = inl mem -> gather (shows k) i rds = inl (map (contents mem) rds).
  Proof. intros H. induction rds as [|rd rds IH]; cbn [gather map]; [reflexivity|]. unfold shows at 1. now rewrite H, IH. Qed.
  Lemma ident_rack i mem : k i = inl mem -> ident_told (shows k) i = inl (kind_of mem).
  Proof. intros H. unfold ident_told, told, shows. now rewrite H. Qed.
  Lemma ident_dead i b : k i = inr b -> ident_told (shows k) i = inr (hw_fault i b).
  Proof. intros H. unfold ident_told, told, shows. now rewrite H. Qed.
  Context (R : memory -> P -> Prop)
    (Hreads : forall mem i, member i m -> k i = inl mem -> exists rds, reads (kind_of mem) = Ok rds /\
                Forall (fun rd => 1 <= rd_len rd <= 255) rds)
    (Hdec : forall mem i, member i m -> k i = inl mem -> exists x, decoded reads parse (kind_of mem) mem = Ok x /\ R mem x).
  Lemma said_rack i mem : member i m -> k i = inl mem ->
    exists x, said reads parse (shows k) i = Ok x /\ R mem x.
  Proof.
    intros Hi H. destruct (Hdec mem i Hi H) as (x & Hx & Rx). destruct (Hreads mem i Hi H) as (rds & Hr & _).
    exists x. split; [|exact Rx]. unfold said. rewrite (ident_rack i mem H). unfold own. rewrite Hr, (gather_rack i mem rds H).
    unfold decoded in Hx. rewrite Hr in Hx. now rewrite Hx.
  Qed.
  Lemma said_dead i b : k i = inr b -> said reads parse (shows k) i = Err (hw_fault i b).
  Proof. intros H. unfold said. now rewrite (ident_dead i b H). Qed.
  Lemma rack_queryable : queryable reads parse (shows k) m.
  Proof.
    intros i Hi. destruct (k i) as [mem|b] eqn:E.
    - destruct (said_rack i mem Hi E) as (x & -> & _). split; [discriminate|]. intros id. rewrite (ident_rack i mem E).
      intros [= <-]. exact (Hreads mem i Hi E).
    - rewrite (said_dead i b E). split; [discriminate|]. intros id. rewrite (ident_dead i b E). discriminate.
  Qed.
  Lemma rack_in_order : fails_in_order reads parse (shows k) m.
  Proof.
    intros i j x y _ Hi Hj Hx _. destruct (k i) as [mem|b] eqn:E.
    - destruct (said_rack i mem Hi E) as (z & Hz & _). unfold says in Hx. rewrite Hz in Hx. discriminate.
    - now rewrite (ident_dead i b E).
  Qed.
  Lemma rack_query {St} (a : honest St) (w : world St) : honest_ok a -> m < 2 ^ 64 -> reads_as a (w_sp w) (shows k) ->
    exists r, snd (parse_modules_by_identifier (honest_sp a) reads parse m w) = Ok r /\ reads_out m k R r.
  Proof.
    intros Ha Hm Hr. destruct (query_correct_spec St a Ha P reads parse (shows k) w m Hm Hr rack_queryable)
      as (r & ds & Er & _ & _ & _ & _ & _ & _ & _ & Hrep).
    exists r. split; [exact Er|]. destruct (Hrep rack_in_order) as (Hwf & Hs & Hf). split; [exact Hwf|].
    split; [|split].
    - intros i mem Hi E. destruct (said_rack i mem Hi E) as (x & Hx & _). exists x. apply Hs. split; [exact Hi|].
      unfold says. now rewrite Hx.
    - intros i x H. apply Hs in H. destruct H as [Hi H]. split; [exact Hi|]. unfold says in H.
      destruct (k i) as [mem|b] eqn:E.
      + destruct (said_rack i mem Hi E) as (y & Hy & Ry). rewrite Hy in H. injection H as <-. eauto.
      + rewrite (said_dead i b E) in H. discriminate.
    - intros i e. rewrite Hf. split; intros [Hi H]; (split; [exact Hi|]).
      + unfold says in H. destruct (k i) as [mem|b] eqn:E.
        * destruct (said_rack i mem Hi E) as (y & Hy & Ry). rewrite Hy in H. discriminate.
        * rewrite (said_dead i b E) in H. injection H as <-. eauto.
      + destruct H as (b & E & ->). unfold says. now rewrite (said_dead i b E).
  Qed.
End Generic.

Lemma reads_len reads id : In reads decoders -> supported_kind id = true ->
  exists rds, reads id = Ok rds /\ Forall (fun rd => 1 <= rd_len rd <= 255) rds.
Proof.
  intros Hr Hid. destruct (reads_supported reads id Hr Hid) as (rds & E & _ & H). exists rds. split; [exact E|].
  eapply Forall_impl; [|exact H]. intros rd (((H1 & H2) & _) & _).
  assert (read_limit (rd_page rd) <= 255) by (unfold read_limit; destruct (rd_page rd); vm_compute; discriminate). lia.
Qed.

Section Racks.
  Context {St : Type} (a : honest St) (Ha : honest_ok a) (w : world St) (m : N) (k : rack)
    (Hm : m < 2 ^ 64) (Hr : reads_as a (w_sp w) (shows k)) (Hk : all_modules m k (fun mem => supported_kind (kind_of mem) = true)).
  Lemma vendor_rack : exists r, snd (vendor_info (honest_sp a) m w) = Ok r /\ reads_out m k vendor_of r.
  Proof.
    apply rack_query; auto.
    - intros mem i Hi E. apply reads_len; [|exact (Hk i mem Hi E)]. now left.
    - intros mem i Hi E. destruct (vendor_correct (kind_of mem) mem (Hk i mem Hi E)) as (v & Hv & Sv).
      eexists. split; [exact Hv|]. exists v. auto.
  Qed.
  Lemma memory_rack : all_modules m k (fun mem => ~ reserved_banks (kind_of mem) mem) ->
    exists r, snd (memory_model (honest_sp a) m w) = Ok r /\ reads_out m k memory_model_of r.
  Proof.
    intros Hb. apply rack_query; auto.
    - intros mem i Hi E. apply reads_len; [|exact (Hk i mem Hi E)]. cbn. auto 10.
    - intros mem i Hi E. destruct (memory_correct (kind_of mem) mem (Hk i mem Hi E) (Hb i mem Hi E)) as (v & Hv & Sv).
      exists v. auto.
  Qed.
  Lemma monitors_rack : bytes_rack k ->
    all_modules m k (fun mem => cmis_kind (kind_of mem) = true -> bias_scale (mem (cmis_up 1) 160) <> None) ->
    exists r, snd (monitors (honest_sp a) m w) = Ok r /\ reads_out m k monitors_of r.
  Proof.
    intros Hy Hb. apply rack_query; auto.
    - intros mem i Hi E. apply reads_len; [|exact (Hk i mem Hi E)]. cbn. auto 10.
    - intros mem i Hi E. specialize (Hy i). rewrite E in Hy. unfold monitors_of.
      destruct (sff_kind (kind_of mem)) eqn:Es.
      + eexists. split; [apply sff_monitors_correct; auto|reflexivity].
      + assert (Ec : cmis_kind (kind_of mem) = true).
        { pose proof (Hk i mem Hi E) as H. unfold supported_kind in H. now rewrite Es in H. }
        rewrite (cmis_monitors_correct _ mem Es Ec). specialize (Hb i mem Hi E Ec).
        destruct (bias_scale _) as [s|]; [|congruence]. eauto.
  Qed.
  Lemma datapath_rack : bytes_rack k -> all_modules m k datapath_sound ->
    exists r, snd (datapath (honest_sp a) m w) = Ok r /\ reads_out m k datapath_of r.
  Proof.
    intros Hy Hb. apply rack_query; auto.
    - intros mem i Hi E. apply reads_len; [|exact (Hk i mem Hi E)]. cbn. auto 10.
    - intros mem i Hi E. specialize (Hy i). rewrite E in Hy. unfold datapath_of.
      destruct (Hb i mem Hi E) as [Es|(H1 & H2 & H3)].
      + rewrite Es. eexists. split; [apply sff_datapath_correct; auto|reflexivity].
      + destruct (sff_kind (kind_of mem)) eqn:Es; [eexists; split; [apply sff_datapath_correct; auto|reflexivity]|].
        assert (Ec : cmis_kind (kind_of mem) = true).
        { pose proof (Hk i mem Hi E) as H. unfold supported_kind in H. now rewrite Es in H. }
        destruct (proj1 (datapath_listed _ mem Hy Es Ec H1 H2) H3) as (dps & Hd & Md). eauto.
  Qed.
End Racks.

(** An SP for a rack. *)
Definition rack_sp (k : rack) : honest unit :=
  mkHonest (fun _ q _ i => match q with
                           | HRead _ rd => shows k i rd
                           | _ => inl (repeat 0 (request_unit q))
                           end) (fun _ _ _ => tt).
Lemma rack_sp_ok k : bytes_rack k -> honest_ok (rack_sp k).
Proof.
  intros H [] q d i. specialize (H i). cbn. destruct q; try (split; [apply repeat_length|reflexivity]).
  unfold shows. destruct (k i) as [mem|b]; [|exact H]. split.
  - unfold contents, area. rewrite map_length. cbn. apply nrange_length.
  - unfold contents, area. apply forallb_forall. intros x Hx. apply in_map_iff in Hx. destruct Hx as (j & <- & _).
    apply N.ltb_lt, H.
Qed.
Lemma rack_sp_reads k s : reads_as (rack_sp k) s (shows k).
Proof. intros before m rd i. now destruct (fold_left _ _ _). Qed.
