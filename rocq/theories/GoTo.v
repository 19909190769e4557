(** MarshalTo of the XxxFields structs: the Go bodies (GoFields.v) and the hand-written models agree. Tactics and the structs without lists. *)
From Coq Require Import String.
From Verif Require Import Base Bits Codec Codec2 Utils Fields1 Time Fields2 Fields3 Fields4 Access Reuse Go GoFields GoRep GoProofs.
Set Implicit Arguments.
Open Scope string_scope.
Open Scope list_scope.
Open Scope nat_scope.

(** what MarshalTo leaves in the buffer and returns, against the result of the model *)
Definition to_agrees (o : state * res gval) (r : res (list N)) : Prop :=
  match r with
  | Ok b => snd o = Ok GNil /\ buf (fst o) = b
  | Err e => snd o = Err e
  | Fault => snd o = Fault
  | Fuel => snd o = Fuel
  end.

Lemma put_keep b lo s b' : put b lo s = Ok b' -> length b = length b'.
Proof.
  unfold put. destruct (Nat.leb_spec (lo + length s) (length b)); [|discriminate]. intros [= <-].
  rewrite !app_length, firstn_length, skipn_length. lia.
Qed.
Lemma copy_keep b lo hi s b' : copy_range b lo hi s = Ok b' -> length b = length b'.
Proof.
  unfold copy_range. destruct (Nat.leb_spec lo hi); [|discriminate]. destruct (Nat.leb_spec hi (length b)); [|discriminate].
  cbn [andb]. intros [= <-]. rewrite !app_length, !firstn_length, skipn_length. lia.
Qed.
Ltac keepit := repeat lazymatch goal with
  | E : bind ?r _ = Ok _ |- _ => let E' := fresh in destruct r eqn:E'; cbn [bind] in E; [|discriminate E|discriminate E|discriminate E]
  | E : (if ?c then _ else _) = Ok _ |- _ => destruct c; [|try discriminate E]
  | E : Err _ = Ok _ |- _ => discriminate E
  | E : Ok _ = Ok _ |- _ => injection E as <- <-
  | E : put _ _ _ = Ok _ |- _ => apply put_keep in E
  | E : copy_range _ _ _ _ = Ok _ |- _ => apply copy_keep in E
  end; congruence.
Lemma wrb_keep c n s b o b' o' : wrb c n s b o = Ok (b', o') -> length b = length b'.
Proof. unfold wrb. intros E. keepit. Qed.
Lemma wrn_keep c n s b o b' o' : wrn c n s b o = Ok (b', o') -> length b = length b'.
Proof. unfold wrn. intros E. keepit. Qed.
Lemma cpb_keep c n s b o b' o' : cpb c n s b o = Ok (b', o') -> length b = length b'.
Proof. unfold cpb. intros E. keepit. Qed.
Lemma cpn_keep c n s b o b' o' : cpn c n s b o = Ok (b', o') -> length b = length b'.
Proof. unfold cpn. intros E. keepit. Qed.
Lemma cp8s_keep c n s b o b' o' : cp8s c n s b o = Ok (b', o') -> length b = length b'.
Proof. unfold cp8s. intros E. keepit. Qed.
Lemma cp16s_keep c n s b o b' o' : cp16s c n s b o = Ok (b', o') -> length b = length b'.
Proof. unfold cp16s. intros E. keepit. Qed.
Lemma wrmac_keep c s b o b' o' : wrmac c s b o = Ok (b', o') -> length b = length b'.
Proof. unfold wrmac. intros E. keepit. Qed.
Lemma cpbcd_keep c n s b o b' o' : cpbcd c n s b o = Ok (b', o') -> length b = length b'.
Proof. unfold cpbcd. intros E. keepit. Qed.
Lemma wr1x_keep x b o b' o' : wr1x x b o = Ok (b', o') -> length b = length b'.
Proof. unfold wr1x. intros E. keepit. Qed.

(** PutUint(8k) into a slice of just k octets *)
Lemma put_be_eq k b i j x : j = i + k -> put_be k b i j x = put b i (be k x).
Proof.
  intros ->. unfold put_be, slice, put. rewrite be_length. destruct (Nat.leb_spec i (i + k)); [|lia]. cbn [andb].
  destruct (Nat.leb_spec (i + k) (length b)); [|reflexivity]. cbn [bind].
  rewrite firstn_length, skipn_length, Nat.min_l by lia. replace (i + k - i) with k by lia. rewrite Nat.ltb_irrefl. reflexivity.
Qed.
(** a number of one octet *)
Lemma be_one x : (x < 256)%N -> be 1 x = [x].
Proof. intros H. cbn [be]. change (256 ^ N.of_nat 0)%N with 1%N. now rewrite N.div_1_r, N.mod_small. Qed.
(** the last three octets of a tag *)
Lemma put_four x : put (make 4) 0 (be 4 x) = Ok (be 4 x). Proof. reflexivity. Qed.
Lemma slice_four x : slice (be 4 x) 1 4 = Ok (skipn 1 (be 4 x)). Proof. reflexivity. Qed.
(** the conversion to 16 bits before the shift makes no difference *)
Lemma tag_word_go f :
  N.lor (N.lor (N.land (u16 (N.shiftl (tg_vid f) 4)) 61440) (N.land (tg_vid f) 255)) (u16 (N.shiftl (u16 (N.lor (u8 (N.shiftl (tg_dei f) 3)) (tg_pcp f))) 8)) = tag_word f.
Proof.
  unfold tag_word. f_equal. unfold u16. rewrite !N.shiftl_mul_pow2. now rewrite N.mul_mod_idemp_l.
Qed.
(** a unit and a rate, written together *)
Lemma rate_pair c u r b o (k : list N -> nat -> res (list N)) : (u < 256)%N ->
  ('(b, o) <- cpn c 1 u b o ;; '(b, o) <- cpn c 2 r b o ;; k b o)
  = ('(b, o) <- (if c then b <- put b o [u] ;; b <- put b (o + 1) (be 2 r) ;; Ok (b, o + 3) else Ok (b, o)) ;; k b o).
Proof.
  intros H. destruct c; [|reflexivity]. unfold cpn. rewrite (be_one H). destruct (put b o [u]) as [a| | |]; cbn [bind]; try reflexivity.
  destruct (put a (o + 1) (be 2 r)) as [a'| | |]; cbn [bind]; try reflexivity. replace (o + 1 + 2) with (o + 3) by lia. reflexivity.
Qed.

Lemma to_bind {X} (e : X -> state) n a c s (r : res X) k :
  sim e (whole (exec n (SSeq a SSkip) s)) r -> (forall x, r = Ok x -> to_agrees (fin (exec n c (e x))) (k x)) ->
  to_agrees (fin (exec n (SSeq a c) s)) (bind r k).
Proof.
  intros S H. unfold whole in S. cbn [exec] in S |- *.
  destruct r as [x|x| |]; cbn [bind]; unfold sim in S; destruct (exec n a s) as [s'|s'|s' []]; try discriminate S; try easy.
  - injection S as ->. now apply H.
  - now subst.
Qed.

(** effects of blocks: the buffer is written and the offset moved (wO) or left alone (wU) *)
Definition wO (s : state) (p : list N * nat) : state := setv "offset" (GI (snd p)) (setb (fst p) s).
Definition wU (s : state) (p : list N * nat) : state := setb (fst p) s.
Definition wP (s : state) (b : list N) : state := setb b s.

Ltac keeps := repeat lazymatch goal with
  | E : put ?b _ _ = Ok ?b' |- context [length ?b] => rewrite (put_keep _ _ _ E)
  | E : copy_range ?b _ _ _ = Ok ?b' |- context [length ?b] => rewrite (copy_keep _ _ _ _ E)
  | E : wrb _ _ _ ?b _ = Ok (_, _) |- context [length ?b] => rewrite (wrb_keep _ _ _ _ _ E)
  | E : wrn _ _ _ ?b _ = Ok (_, _) |- context [length ?b] => rewrite (wrn_keep _ _ _ _ _ E)
  | E : cpb _ _ _ ?b _ = Ok (_, _) |- context [length ?b] => rewrite (cpb_keep _ _ _ _ _ E)
  | E : cpn _ _ _ ?b _ = Ok (_, _) |- context [length ?b] => rewrite (cpn_keep _ _ _ _ _ E)
  | E : cp8s _ _ _ ?b _ = Ok (_, _) |- context [length ?b] => rewrite (cp8s_keep _ _ _ _ _ E)
  | E : cp16s _ _ _ ?b _ = Ok (_, _) |- context [length ?b] => rewrite (cp16s_keep _ _ _ _ _ E)
  | E : wrmac _ _ ?b _ = Ok (_, _) |- context [length ?b] => rewrite (wrmac_keep _ _ _ _ E)
  | E : cpbcd _ _ _ ?b _ = Ok (_, _) |- context [length ?b] => rewrite (cpbcd_keep _ _ _ _ _ E)
  | E : wr1x _ ?b _ = Ok (_, _) |- context [length ?b] => rewrite (wr1x_keep _ _ _ E)
  end.
Ltac bes := repeat match goal with |- context [put_be ?k ?b ?i ?j ?x] => rewrite (@put_be_eq k b i j x ltac:(lia)) end;
  repeat match goal with H : (?x < 256)%N |- context [be 1 ?x] => rewrite (@be_one x H) end;
  repeat match goal with |- context [put (make 4) 0 (be 4 ?x)] => rewrite (put_four x) | |- context [slice (be 4 ?x) 1 4] => rewrite (slice_four x) end.
Ltac normT := lazy beta match fix zeta
  delta [eval test bind of_look look upd setf setv setb leave cut flds vars buf int num oct has octs
         String.eqb Ascii.eqb Bool.eqb wrap N.eqb Pos.eqb notnil fst snd wO wU wP wrb wrn cpb cpn cp8s cp16s wrmac cpbcd wr1x]; cbn [andb orb]; bes.
Ltac foldo := repeat match goal with |- context [match ?o with Some x => x | None => [] end] =>
  change (match o with Some x => x | None => [] end) with (octs o) end.
Ltac normTL := (lazymatch goal with |- ?P ?l ?r =>
  let l' := eval lazy beta match fix zeta
    delta [eval test bind of_look look upd setf setv setb leave cut flds vars buf int num oct has octs
           String.eqb Ascii.eqb Bool.eqb wrap N.eqb Pos.eqb notnil fst snd wO wU wP] in l in
  let l'' := eval cbn [andb orb] in l' in change (P l'' r) end); cbn [bind]; foldo; bes; keeps.
Ltac stepT := step0; normT; keeps; repeat (right; normT).
Ltac rightT := lazymatch goal with |- _ _ ?r =>
  let y := innerL r in
  lazymatch y with
  | wrb true _ _ _ _ => unfold wrb at 1
  | wrn true _ _ _ _ => unfold wrn at 1
  | cpb true _ _ _ _ => unfold cpb at 1
  | cpn true _ _ _ _ => unfold cpn at 1
  | cp8s true _ _ _ _ => unfold cp8s at 1; change (1 + 1) with 2
  | wr1x _ _ _ => unfold wr1x at 1
  end end.
Ltac stepTL := step0; normTL; repeat ((rightL || rightT); cbn [bind]).
Ltac preT1 := lazymatch goal with
  | |- to_agrees (fin (exec _ (SSeq (SIf _ SEof) _) _)) _ => stepTL
  | |- to_agrees (fin (exec _ (SSeq (SIf _ _) _) _)) _ => fail
  | |- to_agrees (fin (exec _ (SSeq (SBlock _) _) _)) _ => fail
  | |- _ => stepTL
  end.
Ltac leafT := lazymatch goal with
  | |- to_agrees (fin (Done _ (Ok _))) _ => first [split; reflexivity | exfalso; discriminate]
  | |- to_agrees (fin (exec _ _ _)) _ => fail
  | |- sim _ _ _ => lazy beta match fix delta [sim within exec leave cut flds vars buf fst snd];
      lazymatch goal with |- True => exact I | |- _ => first [reflexivity | rewrite !Nat.add_assoc; reflexivity | exfalso; discriminate] end
  | |- _ => first [reflexivity | exact I | exfalso; discriminate]
  end.
Ltac preT := repeat preT1; try leafT.
Ltac blkT f := lazymatch goal with
  | |- to_agrees (fin (exec ?n (SSeq ?a ?c) ?s)) (bind ?r ?k) =>
      refine (@to_bind _ (f s) n a c s r k _ _);
      [normT; repeat stepT; leafT|let p := fresh "p" in intros p; try destruct p as [? ?]; intros ?; normTL; preT]
  end.
(** the same with disjunctions of flags kept whole *)
Ltac normO := lazy beta match fix zeta
  delta [eval test bind of_look look upd setf setv setb leave cut flds vars buf int num oct has octs
         String.eqb Ascii.eqb Bool.eqb wrap N.eqb Pos.eqb notnil fst snd wO wU wP cpb cpn]; bes.
Ltac normOL := (lazymatch goal with |- ?P ?l ?r =>
  let l' := eval lazy beta match fix zeta
    delta [eval test bind of_look look upd setf setv setb leave cut flds vars buf int num oct has octs
           String.eqb Ascii.eqb Bool.eqb wrap N.eqb Pos.eqb notnil fst snd wO wU wP] in l in change (P l' r) end); cbn [bind]; foldo; bes; keeps.
Ltac stepO := step0; normO; keeps; repeat (right; normO).
Ltac stepOL := step0; normOL; repeat ((rightL || rightT); cbn [bind]).
Ltac blkO f := lazymatch goal with
  | |- to_agrees (fin (exec ?n (SSeq ?a ?c) ?s)) (bind ?r ?k) =>
      refine (@to_bind _ (f s) n a c s r k _ _);
      [normO; repeat stepO; leafT|let p := fresh "p" in intros p; try destruct p as [? ?]; intros ?; normOL; repeat (lazymatch goal with |- to_agrees (fin (exec _ (SSeq (SIf _ _) _) _)) _ => fail | _ => stepOL end); try leafT]
  end.
Ltac endT := normT; repeat stepT; leafT.
Ltac startT := rewrite call_fin; normTL; preT.
