(** Which memory contents make decoding panic (C42), and counterexamples. *)
From Verif Require Import Tac SpecDecode DecodeProofs DecodeProofs2 DecodeProofs3 DecodeProofs7 DecodeProofs8.
From Coq Require Import Lia.
Open Scope N_scope.

Lemma sff_not_cmis id : sff_kind id = true -> cmis_kind id = false.
Proof.
  intros H. unfold sff_kind in H. apply orb_prop in H. destruct H as [H|H]; apply benum_eqb_true in H; subst id; reflexivity.
Qed.
Lemma unsupported_err {P} reads (parse : Identifier -> list (list N) -> outcome DecodeError P) id mem :
  In reads decoders -> supported_kind id = false -> decoded reads parse id mem = Err (DeUnsupportedIdentifier id).
Proof. intros H1 H2. unfold decoded. now rewrite (reads_unsupported reads id H1 H2). Qed.

Lemma vendor_no_panic id mem : decoded vendor_reads vendor_parse id mem <> Panic.
Proof.
  destruct (supported_kind id) eqn:H.
  - destruct (vendor_correct id mem H) as (v & -> & _). discriminate.
  - rewrite unsupported_err; [discriminate|cbn; auto|exact H].
Qed.
Lemma power_no_panic id mem : decoded power_reads power_parse id mem <> Panic.
Proof.
  destruct (supported_kind id) eqn:H.
  - unfold decoded, power_reads, power_parse. destruct (kinds id H) as [[Hs _]|(Hs & _ & Hc & _)]; rewrite Hs, ?Hc;
      cbn; discriminate.
  - rewrite unsupported_err; [discriminate|cbn; auto|exact H].
Qed.
Lemma memory_panic_iff id mem : decoded memory_reads memory_parse id mem = Panic <-> reserved_banks id mem.
Proof.
  split; [|apply memory_panics]. intros Hp.
  assert (Hd : reserved_banks id mem \/ ~ reserved_banks id mem).
  { unfold reserved_banks. destruct (cmis_kind id); [|right; intros (H & _); discriminate].
    destruct (flat_memory id mem); [right; intros (_ & H & _); discriminate|].
    destruct (N.eq_dec (mem (cmis_up 1) 142 mod 4) 3); [now left|]. right. now intros (_ & _ & H). }
  destruct Hd as [Hd|Hd]; [exact Hd|]. exfalso. destruct (supported_kind id) eqn:H.
  - destruct (memory_correct id mem H Hd) as (m & Hm & _). congruence.
  - rewrite unsupported_err in Hp; [discriminate|cbn; auto|exact H].
Qed.
Lemma monitor_panic_iff id mem : byte_memory mem ->
  (decoded monitor_reads monitor_parse id mem = Panic <-> cmis_kind id = true /\ bias_scale (mem (cmis_up 1) 160) = None).
Proof.
  intros Hb. destruct (supported_kind id) eqn:H.
  - destruct (kinds id H) as [[Hs Hk]|(Hs & Hk & Hc & Hk')].
    + rewrite sff_monitors_correct by assumption. rewrite (sff_not_cmis id Hk). split; [discriminate|]. intros (G & _). discriminate.
    + rewrite cmis_monitors_correct by assumption. rewrite Hk'. destruct (bias_scale _); split; try discriminate; auto.
      intros (_ & G). discriminate.
  - rewrite unsupported_err; [|cbn; auto|exact H]. unfold supported_kind in H. apply orb_false_elim in H. destruct H as [_ ->].
    split; [discriminate|]. intros (G & _). discriminate.
Qed.
Lemma datapath_panic_iff id mem : byte_memory mem ->
  (decoded datapath_reads datapath_parse id mem = Panic <->
   cmis_kind id = true /\ (~ known_media mem \/ ~ assignments_listed mem)).
Proof.
  intros Hb. destruct (supported_kind id) eqn:H.
  - destruct (kinds id H) as [[Hs Hk]|(Hs & Hk & Hc & Hk')].
    + rewrite sff_datapath_correct by assumption. rewrite (sff_not_cmis id Hk). split; [discriminate|]. intros (G & _). discriminate.
    + rewrite Hk'.
      assert (Hm : known_media mem \/ ~ known_media mem) by (unfold known_media; lia).
      destruct Hm as [Hm|Hm].
      2: { rewrite datapath_unknown_media by assumption. split; auto. }
      destruct (assignments_dec mem) as [Ha|(k & K1 & K2 & K3)].
      * split; [|intros (_ & [G|G]); contradiction]. intros Hp. exfalso.
        destruct (datapath_listed id mem Hb Hs Hc Hm Ha) as [G1 G2].
        destruct (existsb (fun k => negb (app_of mem k =? 0) && match lane_with other_nibble mem k with None => true | _ => false end) all_lanes) eqn:E.
        -- apply existsb_exists in E. destruct E as (k & Hk1 & E). apply andb_prop in E. destruct E as [E1 E2].
           rewrite G2 in Hp; [discriminate|]. exists k. split; [split; [now apply in_lanes|now apply N.eqb_neq, Bool.negb_true_iff]|].
           now destruct (lane_with other_nibble mem k).
        -- destruct G1 as (dps & G1 & _); [|congruence]. intros k (Hk1 & Hk2) Hn.
           assert (existsb (fun k => negb (app_of mem k =? 0) && match lane_with other_nibble mem k with None => true | _ => false end) all_lanes = true); [|congruence].
           apply existsb_exists. exists k. split; [now apply in_lanes|]. rewrite Hn.
           apply N.eqb_neq in Hk2. now rewrite Hk2.
      * rewrite (datapath_unlisted id mem k Hb Hs Hc (conj K1 K2) K3). split; [|reflexivity]. intros _. split; [reflexivity|].
        right. intros G. apply K3. now apply G.
  - rewrite unsupported_err; [|cbn; auto 6|exact H]. unfold supported_kind in H. apply orb_false_elim in H. destruct H as [_ ->].
    split; [discriminate|]. intros (G & _). discriminate.
Qed.

Lemma panics_exactly id mem : byte_memory mem ->
  decoded vendor_reads vendor_parse id mem <> Panic /\
  decoded power_reads power_parse id mem <> Panic /\
  (decoded memory_reads memory_parse id mem = Panic <-> reserved_banks id mem) /\
  (decoded monitor_reads monitor_parse id mem = Panic <->
     cmis_kind id = true /\ bias_scale (mem (cmis_up 1) 160) = None) /\
  (decoded datapath_reads datapath_parse id mem = Panic <->
     cmis_kind id = true /\ (~ known_media mem \/ ~ assignments_listed mem)).
Proof.
  intros Hb. exact (conj (vendor_no_panic id mem) (conj (power_no_panic id mem) (conj (memory_panic_iff id mem)
    (conj (monitor_panic_iff id mem Hb) (datapath_panic_iff id mem Hb))))).
Qed.

(** ** Module memories for examples *)
Definition page_key (p : Page) : N :=
  match p with
  | PageSff SffLower => 0 | PageSff (SffUpper n) => 1000 + n
  | PageCmis CmisLower => 2000
  | PageCmis (CmisUpper u) => 3000 + cu_page u
  end.
(** Zero except for the bytes listed. *)
Definition mem_with (l : list (Page * N * N)) : memory := fun p k =>
  match find (fun x => (page_key (fst (fst x)) =? page_key p) && (snd (fst x) =? k)) l with
  | Some x => snd x mod 256
  | None => 0
  end.
Lemma mem_with_bytes l : byte_memory (mem_with l).
Proof. intros p k. unfold mem_with. destruct (find _ l); [apply N.mod_lt|]; lia. Qed.

Lemma blanks_ok c : is_whitespace c = true <->
  In c [9; 10; 11; 12; 13; 32; 0x85; 0xa0; 0x1680; 0x2000; 0x2001; 0x2002; 0x2003; 0x2004; 0x2005; 0x2006; 0x2007; 0x2008; 0x2009;
        0x200a; 0x2028; 0x2029; 0x202f; 0x205f; 0x3000].
Proof. unfold is_whitespace. cbn [In]. lia. Qed.
