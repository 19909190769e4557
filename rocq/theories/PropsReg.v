(** Property C42: parsing while other goroutines change which IE types are grouped.
    Registry.v writes the codec so that every IsGrouped() call is a question to the shared registry,
    and goroutines as small steps over the RWMutex, the map and the function variable.
    [exec (start g qs) w s]: goroutine h runs the tasks of the h-th list of [qs] (AddGroupedIEType,
    SetIsGroupedFun, or a program); the registry holds [g] at first; [w] is the schedule. *)
From Verif Require Import Base IETypes IE Header Message MsgTables MsgProps Registry RegistryProofs RegistryProofs2.

(** with a registry nobody changes these programs are the functions of IE.v and Message.v *)
Theorem C42_same : forall g b i,
  (forall n, fst (run (fun _ => g) n (parse_p b)) = parse g b) /\
  (forall n, fst (run (fun _ => g) n (parseMultiIEs_p b)) = parseMultiIEs g b) /\
  (forall n, fst (run (fun _ => g) n (parse_msg_p b)) = parse_msg g b) /\
  (forall n, fst (run (fun _ => g) n (marshal_p i)) = marshal g i) /\
  (forall n, fst (run (fun _ => g) n (mlen_p i)) = Ok (mlen g i)).
Proof.
  intros g b i. split; [apply parse_same|]. split; [apply parseMulti_same|]. split; [apply parse_msg_same|].
  split; [apply marshal_same|apply mlen_same].
Qed.
Print Assumptions C42_same.

(** the process is never aborted for a concurrent map access, whatever the goroutines do *)
Theorem C42_no_map_clash : forall A g (qs : list (list (task A))) w s, exec (start g qs) w s -> ~ map_clash s.
Proof. exact no_clash. Qed.
Print Assumptions C42_no_map_clash.
(** nobody waits for ever, and no schedule goes on for ever *)
Theorem C42_no_deadlock : forall A g (qs : list (list (task A))) w s, exec (start g qs) w s -> blocked s -> finished s.
Proof. exact no_deadlock. Qed.
Print Assumptions C42_no_deadlock.
Theorem C42_no_infinite : forall A (f : nat -> sys A), (forall n, exists h, step h (f n) = Some (f (S n))) -> False.
Proof. exact no_infinite. Qed.
Print Assumptions C42_no_infinite.

(** if only AddGroupedIEType is used, whatever a program returned, it returned under answers of a
    registry that contained the initial types and only grew *)
Theorem C42_results : forall A g (qs : list (list (task A))) w s h x p r,
  forallb (forallb (@adds_only A)) qs = true -> exec (start g qs) w s ->
  nth_error (threads s) h = Some x -> In (p, r) (out x) ->
  exists o, growing o /\ (forall n t, g t = true -> o n t = true) /\ fst (run o 0 p) = r.
Proof. exact results_grow. Qed.
Print Assumptions C42_results.

(** so message.Parse, ie.Parse and ie.ParseMultiIEs return a value or an error *)
Theorem C42_parse_message : forall g (qs : list (list (task (kind * msg)))) w s h x b r,
  forallb (forallb (@adds_only _)) qs = true -> exec (start g qs) w s ->
  nth_error (threads s) h = Some x -> In (parse_msg_p b, r) (out x) -> bytes b ->
  (exists m, r = Ok m) \/ (exists e, r = Err e).
Proof.
  intros g qs w s h x b r H E Hx Hin Hb. destruct (results_grow _ _ _ _ _ _ _ _ _ H E Hx Hin) as (o & Ho & _ & <-).
  exact (parse_msg_grow o Ho b 0 Hb).
Qed.
Print Assumptions C42_parse_message.
Theorem C42_parse_ie : forall g (qs : list (list (task ie))) w s h x b r,
  forallb (forallb (@adds_only _)) qs = true -> exec (start g qs) w s ->
  nth_error (threads s) h = Some x -> In (parse_p b, r) (out x) ->
  (exists i, r = Ok i) \/ (exists e, r = Err e).
Proof.
  intros g qs w s h x b r H E Hx Hin. destruct (results_grow _ _ _ _ _ _ _ _ _ H E Hx Hin) as (o & Ho & _ & <-).
  exact (parse_grow o Ho b 0).
Qed.
Print Assumptions C42_parse_ie.
Theorem C42_parse_multi : forall g (qs : list (list (task (list ie)))) w s h x b r,
  forallb (forallb (@adds_only _)) qs = true -> exec (start g qs) w s ->
  nth_error (threads s) h = Some x -> In (parseMultiIEs_p b, r) (out x) ->
  (exists i, r = Ok i) \/ (exists e, r = Err e).
Proof.
  intros g qs w s h x b r H E Hx Hin. destruct (results_grow _ _ _ _ _ _ _ _ _ H E Hx Hin) as (o & Ho & _ & <-).
  exact (parseMulti_grow o Ho b 0).
Qed.
Print Assumptions C42_parse_multi.
(** an IE just parsed can be marshalled while types are still being registered *)
Theorem C42_parse_marshal : forall o b k i q, growing o -> run o k (parse_p b) = (Ok i, q) ->
  forall p, q <= p -> exists w, fst (run o p (marshal_p i)) = Ok w.
Proof. intros o b k i q Ho. exact (parse_marshal_grow o Ho b k i q). Qed.
Print Assumptions C42_parse_marshal.
(** and so can any IE in which the children of a type not (yet) grouped fit the payload *)
Theorem C42_marshal : forall o n i, growing o -> covered (o n) i -> exists w, fst (run o n (marshal_p i)) = Ok w.
Proof. exact marshal_grow. Qed.
Print Assumptions C42_marshal.
(** the variable holding the function is read without the lock: harmless unless it is assigned *)
Theorem C42_no_race : forall A g (qs : list (list (task A))) w s,
  forallb (forallb (@adds_only A)) qs = true -> exec (start g qs) w s -> ~ var_race s /\ panicked s = false.
Proof. intros A g qs w s H E. split; [exact (no_race _ _ _ _ _ H E)|exact (no_panic _ _ _ _ _ H E)]. Qed.
Print Assumptions C42_no_race.

(** ** SetIsGroupedFun while parsing: refuted *)
(** a Create PDR holding an IE of type 100 whose payload looks like an empty IE of type 101 *)
Definition tricky : list N := ([0; 1; 0; 8] ++ [0; 100; 0; 4] ++ [0; 101; 0; 0])%N.
Definition tricky_msg : list N := ([32; 1; 0; 16; 0; 0; 1; 0] ++ tricky)%N.
Definition toggles : list (task (kind * msg)) :=
  [KSet (FUser (fun t => (t =? 1) || (t =? 100))%N); KSet (FUser (fun t => t =? 1)%N)].
Definition toggle_schedule : list nat := repeat 0 13 ++ repeat 1 5 ++ repeat 0 2 ++ repeat 1 5 ++ repeat 0 9.
Theorem C42_set_refuted : exists w s x, bytes tricky_msg /\
  exec (start default_grouped [[KProg (parse_msg_p tricky_msg)]; toggles]) w s /\
  nth_error (threads s) 0 = Some x /\ out x = [(parse_msg_p tricky_msg, Fault)].
Proof.
  exists toggle_schedule.
  destruct (play toggle_schedule (start default_grouped [[KProg (parse_msg_p tricky_msg)]; toggles])) as [s|] eqn:E.
  2:{ exfalso. assert (Z : match play toggle_schedule (start default_grouped [[KProg (parse_msg_p tricky_msg)]; toggles])
        with Some _ => true | None => false end = true) by (vm_compute; reflexivity). rewrite E in Z. discriminate. }
  assert (T : match play toggle_schedule (start default_grouped [[KProg (parse_msg_p tricky_msg)]; toggles])
        with Some s => match nth_error (threads s) 0 with Some x => map snd (out x) | None => [] end | None => [] end = [Fault])
    by (vm_compute; reflexivity).
  rewrite E in T. destruct (nth_error (threads s) 0) as [x|] eqn:Hx; [|discriminate].
  exists s, x. split; [unfold tricky_msg, tricky, bytes; repeat constructor|]. pose proof (play_exec _ _ _ E) as Ex.
  split; [exact Ex|]. split; [exact Hx|].
  destruct (ran_programs _ _ _ _ _ Ex 0 _ x eq_refl Hx) as (_ & _ & R).
  destruct (out x) as [|[p r] [|? ?]]; try discriminate T. injection T as ->.
  specialize (R p Fault (or_introl eq_refl)). destruct R as [[= <-]|[]]. reflexivity.
Qed.
Print Assumptions C42_set_refuted.
(** SetIsGroupedFun(nil) makes the next IsGrouped panic *)
Theorem C42_nil_refuted : exists w s,
  exec (start default_grouped [[KSet FNil; KProg (parse_p tricky)]]) w s /\ panicked s = true.
Proof.
  destruct (play (repeat 0 8) (start default_grouped [[KSet FNil; KProg (parse_p tricky)]])) as [s|] eqn:E.
  2:{ vm_compute in E. discriminate E. }
  exists (repeat 0 8), s. split; [exact (play_exec _ _ _ E)|].
  assert (T : match play (repeat 0 8) (start default_grouped [[KSet FNil; KProg (parse_p tricky)]]) with Some s => panicked s | None => false end = true)
    by (vm_compute; reflexivity).
  rewrite E in T. exact T.
Qed.
Print Assumptions C42_nil_refuted.
(** and the variable can be read and written at the same time *)
Theorem C42_race_refuted : exists w s,
  exec (start default_grouped [[KProg (parse_p tricky)]; [KSet FDefault]]) w s /\ var_race s.
Proof.
  exists [0; 1; 1; 1]. eexists. split.
  - econstructor; [reflexivity|]. econstructor; [reflexivity|]. econstructor; [reflexivity|]. econstructor; [reflexivity|]. constructor.
  - exists 0, 1. do 5 eexists. split; [discriminate|]. split; [reflexivity|]. split; [reflexivity|]. split; [|reflexivity].
    cbn [at_]. vm_compute. reflexivity.
Qed.
Print Assumptions C42_race_refuted.
(** Marshal of an IE whose children do not fit its payload panics if its type is registered meanwhile *)
Theorem C42_marshal_refuted : exists o i, growing o /\ ~ covered (o 0) i /\ fst (run o 0 (marshal_p i)) = Fault.
Proof.
  exists (fun n t => (1 <=? n) && (t =? 300)%N), (mkIE 300 4 0 [0; 0; 0; 0]%N [mkIE 100 1 0 [7]%N []]).
  split; [|split].
  - intros n m t Hnm H. apply andb_prop in H. destruct H as [H1 H2]. apply Nat.leb_le in H1. rewrite H2.
    replace (1 <=? m) with true by (symmetry; apply Nat.leb_le; lia). reflexivity.
  - intros [[H|H] _]; [discriminate H|]. apply Nat.leb_le in H. vm_compute in H. discriminate H.
  - vm_compute. reflexivity.
Qed.
Print Assumptions C42_marshal_refuted.

(** hypotheses can be met: two parsers against a registration that changes the outcome *)
Example C42_example :
  let qs := [[KProg (parse_p tricky)]; [KAdd [100]%N]; [KProg (parse_p tricky)]] in
  forallb (forallb (@adds_only ie)) qs = true /\
  exists w1 s1 i1 w2 s2 i2,
    exec (start default_grouped qs) w1 s1 /\ exec (start default_grouped qs) w2 s2 /\
    option_map (fun x => map snd (out x)) (nth_error (threads s1) 0) = Some [Ok i1] /\
    option_map (fun x => map snd (out x)) (nth_error (threads s2) 0) = Some [Ok i2] /\ i1 <> i2.
Proof.
  intros qs. split; [reflexivity|].
  assert (T : forall w, match play w (start default_grouped qs) with
      | Some s => match option_map (fun x => map snd (out x)) (nth_error (threads s) 0) with Some [Ok i] => Some i | _ => None end
      | None => None end <> None ->
    exists s i, exec (start default_grouped qs) w s /\ option_map (fun x => map snd (out x)) (nth_error (threads s) 0) = Some [Ok i] /\
      match play w (start default_grouped qs) with
      | Some s => match option_map (fun x => map snd (out x)) (nth_error (threads s) 0) with Some [Ok i] => Some i | _ => None end
      | None => None end = Some i).
  { intros w. destruct (play w (start default_grouped qs)) as [s|] eqn:E; [|congruence].
    destruct (option_map _ _) as [[|[i| | |] [|? ?]]|] eqn:O; try congruence. intros _. exists s, i.
    split; [exact (play_exec _ _ _ E)|]. split; [exact O|reflexivity]. }
  destruct (T (repeat 0 20 ++ repeat 1 6)) as (s1 & i1 & E1 & O1 & V1); [vm_compute; discriminate|].
  destruct (T (repeat 1 6 ++ repeat 0 32)) as (s2 & i2 & E2 & O2 & V2); [vm_compute; discriminate|].
  do 6 eexists. split; [exact E1|]. split; [exact E2|]. split; [exact O1|]. split; [exact O2|].
  intros Z. rewrite Z, <- V2 in V1. vm_compute in V1. discriminate V1.
Qed.
