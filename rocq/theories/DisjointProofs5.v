(** Calls at the same time, for different modules (C100): effects. *)
From Coq Require Import Lia.
From Verif Require Export SpecDisjoint SpecLive SpecApart.
From Verif Require Import Tac Spec ModuleIdProps NetProofs3 ProgProofs ConcProofs ScopeProofs ScopeProofs2
  LiveProofs LiveProofs2 LiveProofs3 OnceProofs OnceProofs2 OnceProofs3 OnceProofs4 DisjointProofs4.
Import ListNotations.
Open Scope N_scope.

Lemma effects_apart {X} (a : honest (N -> X)) view : honest_ok a -> by_itself a -> minds_others a -> drives a view -> (forall s s' i, s i = s' i -> view s i = view s' i) ->
  forall retries s0 c0 (ps : list (prog (Result unit))) ms ts, c0 < 2 ^ 64 -> Forall2 keeps_to ms ps ->
  let sp := remembering (honest_sp a) in let s1 := sys_new retries (new_keeper s0) c0 ps in orderly sp s1 ts ->
  let s := sys_run sp s1 ts in let now := kp_now (nt_sp (sy_net s)) in
  forall j p m xs r, nth_error ps j = Some p -> has_for_itself ms j m -> m < 2 ^ 64 -> nth_error (sy_calls s) j = Some (Going xs (Ret (Ok r))) ->
  (forall st, steps_of (fun St sp => set_power sp m st) p -> forall i, succeeded r i -> ~ failed r i -> slot_power (view now i) = Some st) /\
  (steps_of (fun St sp => reset sp m) p -> forall i, succeeded r i -> pins (view now i) = (supplied (sl_status (view s0 i)), false, lpmode_pin (sl_status (view s0 i)))) /\
  (forall wr data, bytes data = true -> steps_of (fun St sp => ctl_write sp m wr data) p -> forall i, succeeded r i ->
     sl_status (view now i) = sl_status (view s0 i) /\ sl_led (view now i) = sl_led (view s0 i) /\
     forall p o, (reaches wr p o -> sl_cell (view now i) p o = nth (N.to_nat (o - wr_offset wr)) data 0) /\
                 (~ reaches wr p o -> sl_cell (view now i) p o = sl_cell (view s0 i) p o)) /\
  (forall l, steps_of (fun St sp => set_leds sp m l) p -> forall i, succeeded r i -> sl_led (view now i) = l).
Proof.
  intros Ha Hi Ho Hd Hv retries s0 c0 ps ms ts Hc0 Hk sp s1 Hor s now j p m xs r Hp Hm Hm64 Hc.
  set (w := mkWorld s0 c0 []).
  assert (K : forall c : forall St, (St -> Rpc -> St * reply) -> ctl (St := St) (Result unit), program c -> steps_of c p -> confined m (c _ (honest_sp a)) ->
    snd (c _ (honest_sp a) w) = Ok r /\ forall i, succeeded r i -> view now i = seen_after view (c _ (honest_sp a)) w i).
  { intros c Pc Sc Cc. destruct (kept_apart (honest_sp a) (honest_polite a Ha) (honest_scoped a) (honest_local a Hi Ho) retries s0 c0 Hc0 ps ms Hk ts Hor) as [U _].
    destruct (U j p m Hp Hm) as (c' & Hc' & U1 & _). fold sp s1 s in Hc', U1. rewrite Hc in Hc'. injection Hc' as <-.
    destruct (U1 xs (Ok r) eq_refl) as [(e & _ & He)|[E1 E2]]; [discriminate (He (program_stops c p Pc Sc))|]. fold now in E2. fold w in E1, E2. rewrite <- Sc in E1, E2.
    split; [exact E1|]. intros i Hs. unfold seen_after. apply Hv, E2. eapply (proj2 Cc); [exact E1|now left]. }
  pose proof calls_are_programs as (P1 & P2 & _ & P4 & P5 & _). pose proof (all_confined (honest_sp a) (honest_scoped a) m) as (_ & _ & _ & _ & C5 & _ & C7 & _ & C9 & C10 & _).
  split; [|split; [|split]].
  - intros st St i Hs Hf. destruct (K _ (P5 m st) St (C10 st)) as [E V]. rewrite (V i Hs). exact (live_set_power a view Ha Hd w m st r Hm64 E i Hs Hf).
  - intros St i Hs. destruct (K _ (proj1 (proj2 (proj2 (proj2 (proj2 (P1 m)))))) St C5) as [E V]. rewrite (V i Hs). exact (proj2 (proj2 (live_reset a view Ha Hd w m r Hm64 E i Hs))).
  - intros wr data Hda St i Hs. destruct (K _ (P4 m wr data) St (C9 wr data)) as [E V]. rewrite (V i Hs). exact (proj2 (proj2 (proj2 (live_write a view Ha Hd w m wr data r Hm64 Hda E i Hs)))).
  - intros l St i Hs. destruct (K _ (P2 (HSetLedState m l)) St (C7 (HSetLedState m l) eq_refl)) as [E V]. rewrite (V i Hs). exact (proj2 (live_set_led a view Ha Hd w m l r Hm64 E i Hs)).
Qed.
