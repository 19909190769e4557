(** The Go bodies (GoFields.v) and the hand-written models of the same methods agree: the tactics, and UnmarshalBinary of most structs. *)
From Coq Require Import String.
From Verif Require Import Base Bits Codec Codec2 Utils Fields1 Time Fields2 Fields3 Fields4 Access Reuse Go GoFields GoRep.
Set Implicit Arguments.
Open Scope string_scope.
Open Scope list_scope.
Open Scope nat_scope.

(** what UnmarshalBinary leaves and returns, against the result of the model *)
Definition un_agrees {A} (rp : A -> store) (b : list N) (o : state * res gval) (r : res A) : Prop :=
  match r with
  | Ok y => snd o = Ok GNil /\ flds (fst o) = rp y /\ buf (fst o) = b
  | Err e => snd o = Err e
  | Fault => snd o = Fault
  | Fuel => snd o = Fuel
  end.

Lemma slice_one b o : slice b o (o + 1) = (x <- index b o ;; Ok [x]).
Proof.
  rewrite Nat.add_1_r. unfold slice, index. destruct (Nat.leb_spec o (S o)); [|lia]. cbn [andb].
  destruct (Nat.leb_spec (S o) (length b)) as [L|L].
  - replace (S o - o) with 1 by lia. destruct (nth_error b o) eqn:E; [|apply nth_error_None in E; lia].
    cbn [bind]. f_equal. apply nth_error_split in E. destruct E as (l1 & l2 & -> & <-).
    rewrite skipn_app, Nat.sub_diag, skipn_all. reflexivity.
  - destruct (nth_error b o) eqn:E; [|reflexivity]. exfalso.
    assert (o < length b) by (apply nth_error_Some; congruence). lia.
Qed.
Lemma getn_slice b i j k x : slice b i j = Ok x -> j - i = k -> getn k x = Ok (unbe x).
Proof.
  unfold slice, getn. destruct (Nat.leb_spec i j); [|discriminate]. destruct (Nat.leb_spec j (length b)); [|discriminate].
  cbn [andb]. intros [= <-] <-. rewrite firstn_length, skipn_length, Nat.min_l by lia. rewrite Nat.leb_refl.
  now rewrite firstn_firstn, Nat.min_id.
Qed.

Lemma over_make b i j k x : slice b i j = Ok x -> j - i = k -> over_octs (make k) x = x.
Proof.
  unfold slice. destruct (Nat.leb_spec i j); [|discriminate]. destruct (Nat.leb_spec j (length b)); [|discriminate]. cbn [andb].
  intros [= <-] <-. unfold over_octs, make. rewrite repeat_length, firstn_firstn, Nat.min_id.
  assert (L : length (firstn (j - i) (skipn i b)) = j - i) by (rewrite firstn_length, skipn_length; lia).
  rewrite L. rewrite (skipn_all2 (repeat 0%N (j - i))) by (rewrite repeat_length; lia). apply app_nil_r.
Qed.

(** running a body statement by statement *)
Definition fin (o : out) : state * res gval := match o with Done s r => (s, r) | Next s => (s, Fault) | Brk s => (s, Fault) end.
Lemma call_fin n c f b : call n c f b = fin (exec n (SSeq c SSkip) (St f [] b)).
Proof. unfold call. cbn [exec]. destruct (exec n c (St f [] b)); reflexivity. Qed.
Lemma ex_skip n c s : exec n (SSeq SSkip c) s = exec n c s. Proof. reflexivity. Qed.
Lemma ex_seq n a b c s : exec n (SSeq (SSeq a b) c) s = exec n (SSeq a (SSeq b c)) s.
Proof. cbn [exec]. now destruct (exec n a s). Qed.
Lemma ex_eof n c s : exec n (SSeq SEof c) s = Done s (Err EUnexpectedEOF). Proof. reflexivity. Qed.
Lemma ex_brk n c s : exec n (SSeq SBreak c) s = Brk s. Proof. reflexivity. Qed.
Lemma fails_seq {A} n c s (r : res A) k :
  match fails s r k with Next s => exec n c s | o => o end = fails s r (fun v => match k v with Next s => exec n c s | o => o end).
Proof. now destruct r. Qed.
Lemma ex_let n x e c s : exec n (SSeq (SLet x e) c) s = fails s (eval s e) (fun v => exec n c (setv x v s)).
Proof. cbn [exec]. now rewrite fails_seq. Qed.
Lemma ex_set n x e c s : exec n (SSeq (SSet x e) c) s =
  fails s (eval s e) (fun v => match look x (flds s) with Some _ => exec n c (setf x v s) | None => Done s Fault end).
Proof. cbn [exec]. rewrite fails_seq. destruct (eval s e); cbn; try easy. now destruct (look x (flds s)). Qed.
Lemma ex_plmn n x y e c s : exec n (SSeq (SPlmn x y e) c) s =
  fails s (v <- eval s e ;; p <- oct v ;; decode_plmn p) (fun '(m, k) => exec n c (setf y (GS k) (setf x (GS m) s))).
Proof. cbn [exec]. rewrite fails_seq. now destruct (v <- eval s e ;; p <- oct v ;; decode_plmn p) as [[m k]| | |]. Qed.
Lemma ex_copyf n x e c s : exec n (SSeq (SCopyF x e) c) s =
  fails s (v <- eval s e ;; oct v) (fun p => match look x (flds s) with Some (GB d) => exec n c (setf x (GB (over_slice d p)) s) | _ => Done s Fault end).
Proof. cbn [exec]. rewrite fails_seq. destruct (v <- eval s e ;; oct v); cbn; try easy. destruct (look x (flds s)) as [[]|]; easy. Qed.
Lemma ex_putb n i e c s : exec n (SSeq (SPutB i e) c) s =
  fails s (v <- eval s e ;; x <- num v ;; w <- eval s i ;; i <- int w ;; put (buf s) i [x]) (fun b => exec n c (setb b s)).
Proof. cbn [exec]. now rewrite fails_seq. Qed.
Lemma ex_put n k lo hi e c s : exec n (SSeq (SPut k lo hi e) c) s =
  fails s (w <- eval s lo ;; i <- int w ;; w <- eval s hi ;; j <- int w ;; v <- eval s e ;; x <- num v ;; put_be k (buf s) i j x) (fun b => exec n c (setb b s)).
Proof. cbn [exec]. now rewrite fails_seq. Qed.
Lemma ex_putv n k x e c s : exec n (SSeq (SPutV k x e) c) s =
  fails s (w <- of_look (look x (vars s)) ;; d <- oct w ;; v <- eval s e ;; y <- num v ;; put d 0 (be k y)) (fun p => exec n c (setv x (GB (Some p)) s)).
Proof. cbn [exec]. now rewrite fails_seq. Qed.
Lemma ex_copyb n lo hi e c s : exec n (SSeq (SCopyB lo hi e) c) s =
  fails s (w <- eval s lo ;; i <- int w ;; w <- eval s hi ;; j <- int w ;; v <- eval s e ;; x <- oct v ;; copy_range (buf s) i j x) (fun b => exec n c (setb b s)).
Proof. cbn [exec]. now rewrite fails_seq. Qed.
Lemma ex_if n t a c s : exec n (SSeq (SIf t a) c) s = fails s (test s t) (fun x => if x then exec n (SSeq a c) s else exec n c s).
Proof. cbn [exec]. rewrite fails_seq. now destruct (test s t) as [[]| | |]. Qed.
Lemma ex_ret n e c s : exec n (SSeq (SRet e) c) s = fails s (eval s e) (fun v => Done s (Ok v)).
Proof. cbn [exec]. rewrite fails_seq. now destruct (eval s e). Qed.

(** a block that does one step of the model: e says what it leaves *)
Definition whole (o : out) : out := o.
Definition sim {X} (e : X -> state) (o : out) (r : res X) : Prop :=
  match r with
  | Ok x => o = Next (e x)
  | Err x => match o with Done _ (Err y) => x = y | _ => False end
  | Fault => match o with Done _ Fault => True | _ => False end
  | Fuel => match o with Done _ Fuel => True | _ => False end
  end.
Lemma agree_bind {A X} (e : X -> state) n (rp : A -> store) b a c s (r : res X) k :
  sim e (whole (exec n (SSeq a SSkip) s)) r -> (forall x, un_agrees rp b (fin (exec n c (e x))) (k x)) ->
  un_agrees rp b (fin (exec n (SSeq a c) s)) (bind r k).
Proof.
  intros S H. unfold whole in S. cbn [exec] in S |- *.
  destruct r as [x|x| |]; cbn [bind]; unfold sim in S; destruct (exec n a s) as [s'|s'|s' []]; try discriminate S; try easy.
  - injection S as ->. apply H.
  - now subst.
Qed.

(** effects of blocks: a member of the struct is set and the offset moved (s) or left alone (u) *)
Definition sN x (s : state) (p : N * nat) : state := setv "offset" (GI (snd p)) (setf x (GN (fst p)) s).
Definition sB x (s : state) (p : bslice * nat) : state := setv "offset" (GI (snd p)) (setf x (GB (fst p)) s).
Definition sS x (s : state) (p : list N * nat) : state := setv "offset" (GI (snd p)) (setf x (GS (fst p)) s).
Definition sNS x y (s : state) (p : N * list N * nat) : state := setv "offset" (GI (snd p)) (setf y (GS (snd (fst p))) (setf x (GN (fst (fst p))) s)).
Definition sNN x y (s : state) (p : N * N * nat) : state := setv "offset" (GI (snd p)) (setf y (GN (snd (fst p))) (setf x (GN (fst (fst p))) s)).
Definition uN x (s : state) (p : N * nat) : state := setf x (GN (fst p)) s.
Definition uB x (s : state) (p : bslice * nat) : state := setf x (GB (fst p)) s.
Definition uS x (s : state) (p : list N * nat) : state := setf x (GS (fst p)) s.
Definition vN x (s : state) (v : N) : state := setf x (GN v) s.

Lemma ex_block n a s : whole (exec n (SSeq (SBlock a) SSkip) s) = within s (exec n (SSeq a SSkip) s).
Proof. unfold whole. cbn [exec]. now destruct (exec n a s). Qed.

(** the loop for { a } with at most k iterations, and for _, x := range *)
Fixpoint loop (n k : nat) (a : stmt) (s : state) : out :=
  match k with
  | O => Done s Fuel
  | S k => match exec n a s with Next s => loop n k a s | Brk s => Next s | Done s r => Done s r end
  end.
Fixpoint range (n : nat) (x : string) (a : stmt) (l : list (list N)) (s : state) : out :=
  match l with
  | [] => Next s
  | p :: l => match exec n a (setv x (GS p) s) with Next s => range n x a l s | Brk s => Next s | Done s r => Done s r end
  end.
Lemma ex_loop n a c s : exec n (SSeq (SLoop a) c) s = match loop n n a s with Next s => exec n c s | o => o end.
Proof.
  cbn [exec]. match goal with |- match ?f n s with _ => _ end = _ => enough (E : forall k s, f k s = loop n k a s) by now rewrite E end.
  induction k as [|k IH]; intros s'; cbn [loop]; [reflexivity|]. destruct (exec n a s'); auto.
Qed.
Lemma ex_range n x y a c s : exec n (SSeq (SRange x y a) c) s =
  match look y (flds s) with Some (GL l) => match range n x a l s with Next s => exec n c s | o => o end | _ => Done s Fault end.
Proof.
  cbn [exec]. destruct (look y (flds s)) as [[]|]; try reflexivity.
  match goal with |- match ?f l s with _ => _ end = _ => enough (E : forall l s, f l s = range n x a l s) by now rewrite E end.
  clear. induction l as [|p l IH]; intros s; cbn [range]; [reflexivity|]. destruct (exec n a (setv x (GS p) s)); auto.
Qed.

Ltac ex n a c s := lazymatch a with
  | SSkip => rewrite (ex_skip n c s)
  | SSeq ?a ?b => rewrite (ex_seq n a b c s)
  | SEof => rewrite (ex_eof n c s)
  | SBreak => rewrite (ex_brk n c s)
  | SLet ?x ?e => rewrite (ex_let n x e c s)
  | SSet ?x ?e => rewrite (ex_set n x e c s)
  | SPlmn ?x ?y ?e => rewrite (ex_plmn n x y e c s)
  | SCopyF ?x ?e => rewrite (ex_copyf n x e c s)
  | SPutB ?i ?e => rewrite (ex_putb n i e c s)
  | SPut ?k ?lo ?hi ?e => rewrite (ex_put n k lo hi e c s)
  | SPutV ?k ?x ?e => rewrite (ex_putv n k x e c s)
  | SCopyB ?lo ?hi ?e => rewrite (ex_copyb n lo hi e c s)
  | SIf ?t ?a => rewrite (ex_if n t a c s)
  | SRet ?e => rewrite (ex_ret n e c s)
  end.
Ltac norm := lazy beta match fix zeta
  delta [eval test bind of_look look upd setf setv setb leave cut flds vars buf int num oct has octs
         String.eqb Ascii.eqb Bool.eqb wrap N.eqb Pos.eqb notnil fst snd orold rd rdb rdn rds rdf rdsf rdnf rd8s rd1 copy_in getr over_slice sN sB sS sNS sNN uN uB uS vN]; cbn [andb orb].
Ltac inner t := lazymatch t with (match ?x with _ => _ end) => inner x | _ => t end.
Ltac known x := first
  [ lazymatch goal with E : x = _ |- _ => rewrite E end
  | lazymatch x with
    | getn ?k ?y => lazymatch goal with E : slice ?b ?i ?j = Ok y |- _ => rewrite (@getn_slice b i j k y E ltac:(lia)) end
    end
  | destruct x eqn:? ].
(** the model is ahead or reads one octet as a slice *)
Ltac right := lazymatch goal with
  | |- _ _ (match ?x with _ => _ end) =>
      let y := inner x in
      first
        [ lazymatch goal with E : y = _ |- _ => rewrite E end
        | lazymatch y with
          | slice ?b ?i ?j => rewrite (slice_one b i : slice b i j = _)
          | getn ?k ?z => lazymatch goal with E : slice ?b ?i ?j = Ok z |- _ => rewrite (@getn_slice b i j k z E ltac:(lia)) end
          end ]
  end.
Ltac step0 := lazymatch goal with
  | |- _ (whole (exec ?n (SSeq (SBlock ?a) SSkip) ?s)) _ => rewrite (ex_block n a s)
  | |- _ (_ (exec ?n (SSeq ?a ?c) ?s)) _ => ex n a c s
  | |- _ (_ (fails _ (Ok _) _)) _ => unfold fails at 1
  | |- _ (_ (fails _ (Err _) _)) _ => unfold fails at 1
  | |- _ (_ (fails _ Fault _)) _ => unfold fails at 1
  | |- _ (_ (fails _ Fuel _)) _ => unfold fails at 1
  | |- _ (_ (fails _ ?x _)) _ => let y := inner x in known y
  | |- _ (_ (match ?x with _ => _ end)) _ => let y := inner x in known y
  end.
Ltac step := step0; norm; repeat (right; norm).
Ltac overs := repeat lazymatch goal with
  | E : slice ?b ?i ?j = Ok ?x |- context [over_octs (make ?k) ?x] => rewrite (@over_make b i j k x E ltac:(lia))
  end.
Ltac leaf := overs; lazymatch goal with
  | |- _ (fin (Done _ (Ok _))) _ => repeat split; reflexivity
  | |- _ (fin (exec _ _ _)) _ => fail
  | |- _ => first [reflexivity | exact I]
  end.
(** the same, keeping the steps of the model apart *)
Ltac normL := lazymatch goal with |- ?P ?l ?r =>
  let l' := eval lazy beta match fix zeta
    delta [eval test bind of_look look upd setf setv setb leave cut flds vars buf int num oct has octs
           String.eqb Ascii.eqb Bool.eqb wrap N.eqb Pos.eqb notnil fst snd over_slice sN sB sS sNS sNN uN uB uS vN] in l in
  let l'' := eval cbn [andb orb] in l' in change (P l'' r) end; cbn [bind].
Ltac innerL t := lazymatch t with bind ?x _ => innerL x | (match ?x with _ => _ end) => innerL x | _ => t end.
Ltac rightL := lazymatch goal with |- _ _ ?r =>
  let y := innerL r in
  first
    [ lazymatch goal with E : y = _ |- _ => rewrite E end
    | lazymatch y with
      | slice ?b ?i ?j => rewrite (slice_one b i : slice b i j = _)
      | getn ?k ?z => lazymatch goal with E : slice ?b ?i ?j = Ok z |- _ => rewrite (@getn_slice b i j k z E ltac:(lia)) end
      | getr _ _ _ _ => unfold getr at 1
      | rd1 _ _ => unfold rd1 at 1
      | copy_in _ _ _ _ => unfold copy_in at 1
      | rdn true _ _ _ _ => unfold rdn at 1
      | rds true _ _ _ _ => unfold rds at 1
      | rd8s true _ _ => unfold rd8s at 1
      | rd _ _ _ => unfold rd at 1
      end ]
  end.
Ltac stepL := step0; normL; repeat (rightL; cbn [bind]).
(** statements that do not branch *)
Ltac pre1 := lazymatch goal with
  | |- un_agrees _ _ (fin (exec _ (SSeq (SIf _ SEof) _) _)) _ => stepL
  | |- un_agrees _ _ (fin (exec _ (SSeq (SIf _ _) _) _)) _ => fail
  | |- un_agrees _ _ (fin (exec _ (SSeq (SLoop _) _) _)) _ => fail
  | |- _ => stepL
  end.
Ltac pre := repeat pre1; try leaf.
(** f is the effect of the next block on the state *)
Ltac blk f := lazymatch goal with
  | |- un_agrees _ _ (fin (exec ?n (SSeq ?a ?c) ?s)) (bind ?r ?k) =>
      refine (@agree_bind _ _ (f s) n _ _ a c s r k _ _);
      [norm; repeat step; leaf|let p := fresh "p" in intros p; try destruct p as [[? ?] ?]; try destruct p as [? ?]; normL; pre]
  end.
Ltac start := rewrite call_fin; normL; pre.
Ltac agree := rewrite call_fin; norm; repeat step; leaf.
