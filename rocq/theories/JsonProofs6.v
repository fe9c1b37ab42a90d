(** Proofs for C83: what readers refuse. *)
From Coq Require Import String.
From Verif Require Import SpecJson JsonProofs JsonProofs4.
Import ListNotations.
Local Open Scope string_scope.
Local Open Scope list_scope.
Local Open Scope N_scope.

Lemma fields_here n j l l' : exists a b, fields n (l ++ (T n, j) :: l') = a ++ j :: b.
Proof.
  exists (fields n l), (fields n l'). rewrite fields_app. f_equal. unfold fields. cbn [filter fst]. rewrite text_eqb_same. reflexivity.
Qed.
Lemma required_bad {A} n (f : json -> option A) j l l' : f j = None -> required n f (l ++ (T n, j) :: l') = None.
Proof.
  intros H. unfold required. destruct (fields_here n j l l') as (a & b & ->). destruct a as [|x [|y a]]; [|reflexivity|reflexivity].
  destruct b; [exact H|reflexivity].
Qed.
Lemma optional_bad {A} n (f : json -> option A) j l l' : f j = None -> j <> JNull -> optional n f (l ++ (T n, j) :: l') = None.
Proof.
  intros H N. unfold optional. destruct (fields_here n j l l') as (a & b & ->). destruct a as [|x [|y a]]; [|reflexivity|reflexivity].
  destruct b; [|reflexivity]. cbn. unfold option_of_json. rewrite H. now destruct j.
Qed.

Lemma sequence_bad {A} (l : list (option A)) : In None l -> sequence l = None.
Proof.
  induction l as [|[x|] l IH]; [intros []| |reflexivity]. intros [|H]; [discriminate|]. cbn. now rewrite IH.
Qed.
Lemma sequence_length {A} (l : list (option A)) : forall r, sequence l = Some r -> List.length r = List.length l.
Proof.
  induction l as [|[x|] l IH]; intros r; [intros [= <-]; reflexivity| |discriminate]. cbn. destruct (sequence l) as [s|]; [|discriminate]. intros [= <-]. cbn. now rewrite IH.
Qed.
Lemma list_bad {A} (f : json -> option A) (bad : json -> Prop) j : (forall x, bad x -> f x = None) -> no_list bad j -> list_of_json f j = None.
Proof.
  intros H K. unfold list_of_json. destruct j as [| | | | |l|]; try reflexivity. destruct (K l eq_refl) as (x & H1 & H2). apply sequence_bad.
  rewrite <- (H x H2). now apply in_map.
Qed.
Lemma byte_bad j : no_byte j -> u8_of_json j = None.
Proof.
  intros H. destruct j as [| |n| | | |]; try reflexivity. cbn. specialize (H n eq_refl). destruct (N.ltb_spec n 256); [Lia.lia|reflexivity].
Qed.
Lemma bytes_bad n j : no_bytes n j -> forall r, list_of_json u8_of_json j = Some r -> List.length r <> n.
Proof.
  intros H r E. destruct j as [| | | | |l|]; try discriminate. cbn in E. destruct (H l eq_refl) as [K|(x & H1 & H2)].
  - apply sequence_length in E. rewrite map_length in E. congruence.
  - rewrite sequence_bad in E; [discriminate|]. rewrite <- (byte_bad x H2). now apply in_map.
Qed.
Lemma oui_bad j : no_bytes 3 j -> oui_of_json j = None.
Proof.
  intros H. unfold oui_of_json. destruct (list_of_json u8_of_json j) as [r|] eqn:E; [|reflexivity]. apply (bytes_bad 3) in E; [|exact H].
  destruct r as [|? [|? [|? [|]]]]; try reflexivity. now destruct E.
Qed.
Lemma word_bad j : no_bytes 2 j -> word_of_json j = None.
Proof.
  intros H. unfold word_of_json. destruct (list_of_json u8_of_json j) as [r|] eqn:E; [|reflexivity]. apply (bytes_bad 2) in E; [|exact H].
  destruct r as [|? [|? [|]]]; try reflexivity. now destruct E.
Qed.
Lemma text_bad j : no_text j -> text_of_json j = None.
Proof. now destruct j. Qed.
Lemma flag_bad j : no_flag j -> bool_of_json j = None.
Proof. now destruct j. Qed.
Lemma number_bad j : no_number j -> float_of_json j = None.
Proof. now destruct j. Qed.
Lemma entries_bad {A} (f : json -> option A) l : (exists t x, In (t, x) l /\ f x = None) -> forall acc, map_entries f l acc = None.
Proof.
  induction l as [|[t j] l IH]; [intros (t & x & [] & _)|]. intros (u & x & [[= -> ->]|H] & K) acc; cbn [map_entries].
  - rewrite K. now destruct (key_of_text u).
  - destruct (key_of_text t); [|reflexivity]. destruct (f j); [|reflexivity]. apply IH. eauto.
Qed.
Lemma map_bad {A} (f : json -> option A) j : no_map (fun x => f x = None) j -> map_of_json f j = None.
Proof.
  intros H. unfold map_of_json, of_object. destruct j as [| | | | | |l]; try reflexivity. apply entries_bad. destruct (H l eq_refl) as (t & x & K). eauto.
Qed.

(** The bad member is reached, whatever is read before it. *)
Ltac refuse lem := let H := fresh in intros j l l' H; match goal with |- ?f (JObject _) = None => unfold f end; cbn [of_object];
  repeat match goal with
  | |- context[required ?n ?f (l ++ (T ?n, j) :: l')] => rewrite (required_bad n f j l l') by (eapply lem; apply H)
  | |- context[optional ?n ?f (l ++ (T ?n, j) :: l')] => rewrite (optional_bad n f j l l') by ((eapply lem; apply H) || apply H)
  | |- context[match ?x with Some _ => _ | None => _ end] => destruct x; [|reflexivity]
  | |- None = None => reflexivity
  end.
Ltac refuses lem := repeat (constructor; [refuse lem|]); constructor.
Lemma same_bad (P : Prop) : P -> P.
Proof. auto. Qed.
Lemma list_same {A} (f : json -> option A) j : no_list (fun x => f x = None) j -> list_of_json f j = None.
Proof. now apply list_bad. Qed.
Lemma numbers_bad j : no_list no_number j -> list_of_json float_of_json j = None.
Proof. apply list_bad. apply number_bad. Qed.
Lemma readers_picky : picky_readers.
Proof.
  split; [refuses text_bad|]. split; [refuse text_bad|]. split; [refuse oui_bad|]. split; [refuses number_bad|]. split; [refuses numbers_bad|].
  split; [refuse @list_same|]. split; [refuse same_bad|]. split; [refuse word_bad|]. split; [refuse @list_same|]. split.
  { intros j l l' H. unfold sff_of_json. cbn [of_object]. destruct (required "connector" _ _) as [c0|]; [|reflexivity]. destruct (required "specification" _ _) as [s0|]; [|reflexivity].
    unfold required. destruct (fields_here "lanes" j l l') as (a & b & ->). destruct a as [|x [|y a]]; [|reflexivity|reflexivity]. destruct b; [|reflexivity].
    cbn [List.app]. destruct (list_of_json sff_lane_of_json j) as [r|] eqn:E; [|reflexivity]. destruct j as [| | | | |k|]; try discriminate.
    cbn in E. apply sequence_length in E. rewrite map_length in E. specialize (H k eq_refl). destruct (Nat.eqb_spec (List.length r) 4); [congruence|reflexivity]. }
  split; [refuses flag_bad|]. split; [refuse byte_bad|]. split; [refuse @map_bad|]. split; [refuse same_bad|]. split; [refuse @map_bad|].
  split; [refuses byte_bad|]. refuses flag_bad.
Qed.
