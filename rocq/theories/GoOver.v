(** MarshalTo of the XxxFields structs into a slice with spare capacity: the statements of GoFields.v run again on a slice of length L of a memory that goes on to
    the capacity.  len(b) and b[i] are bounded by L; b[lo:hi], to which binary.BigEndian.PutUintN and copy write, by the memory.
    These methods read b through len(b) only ([len_only], PropsGoOver.v), so that it does not matter that b[lo:hi] inside an expression is bounded by L here. *)
From Coq Require Import String.
From Verif Require Import Base Codec Utils Time Fields2 Fields3 Access Reuse Go GoProofs GoMeta.
Set Implicit Arguments.
Open Scope string_scope.
Open Scope list_scope.
Open Scope nat_scope.

(** what expressions see of the memory *)
Definition view (L : nat) (s : state) : state := St (flds s) (vars s) (firstn L (buf s)).
Fixpoint xexec (n L : nat) (c : stmt) (s : state) {struct c} : out :=
  match c with
  | SSkip => Next s
  | SSeq a b => match xexec n L a s with Next s => xexec n L b s | o => o end
  | SBlock a => within s (xexec n L a s)
  | SLet x e => fails s (eval (view L s) e) (fun v => Next (setv x v s))
  | SSet x e => fails s (eval (view L s) e) (fun v => match look x (flds s) with Some _ => Next (setf x v s) | None => Done s Fault end)
  | SPlmn x y e => fails s (v <- eval (view L s) e ;; p <- oct v ;; decode_plmn p) (fun '(m, n) => Next (setf y (GS n) (setf x (GS m) s)))
  | SCopyF x e =>
      fails s (v <- eval (view L s) e ;; oct v) (fun p =>
        match look x (flds s) with Some (GB d) => Next (setf x (GB (over_slice d p)) s) | _ => Done s Fault end)
  | SPutB i e =>
      fails s (v <- eval (view L s) e ;; x <- num v ;; w <- eval (view L s) i ;; i <- int w ;; if i <? L then put (buf s) i [x] else Fault) (fun b => Next (setb b s))
  | SPut k lo hi e =>
      fails s (w <- eval (view L s) lo ;; i <- int w ;; w <- eval (view L s) hi ;; j <- int w ;; v <- eval (view L s) e ;; x <- num v ;;
               put_be k (buf s) i j x) (fun b => Next (setb b s))
  | SPutV k x e =>
      fails s (w <- of_look (look x (vars s)) ;; d <- oct w ;; v <- eval (view L s) e ;; y <- num v ;; put d 0 (be k y)) (fun p => Next (setv x (GB (Some p)) s))
  | SCopyB lo hi e =>
      fails s (w <- eval (view L s) lo ;; i <- int w ;; w <- eval (view L s) hi ;; j <- int w ;; v <- eval (view L s) e ;; x <- oct v ;;
               copy_range (buf s) i j x) (fun b => Next (setb b s))
  | SIf c a => fails s (test (view L s) c) (fun x => if x then xexec n L a s else Next s)
  | SLoop a =>
      (fix loop (k : nat) (s : state) {struct k} : out :=
         match k with
         | O => Done s Fuel
         | S k => match xexec n L a s with Next s => loop k s | Brk s => Next s | Done s r => Done s r end
         end) n s
  | SRange x y a =>
      match look y (flds s) with
      | Some (GL l) =>
          (fix range (l : list (list N)) (s : state) {struct l} : out :=
             match l with
             | [] => Next s
             | p :: l => match xexec n L a (setv x (GS p) s) with Next s => range l s | Brk s => Next s | Done s r => Done s r end
             end) l s
      | _ => Done s Fault
      end
  | SBreak => Brk s
  | SRet e => fails s (eval (view L s) e) (fun v => Done s (Ok v))
  | SEof => Done s (Err EUnexpectedEOF)
  end.
(** the call of a method on the first L octets of the memory M *)
Definition xcall (n L : nat) (c : stmt) (f : store) (M : list N) : state * res gval :=
  match xexec n L c (St f [] M) with Done s r => (s, r) | Next s => (s, Fault) | Brk s => (s, Fault) end.

(** * Proofs *)
(** the same state with further memory behind the slice *)
Definition ext (T : list N) (s : state) : state := St (flds s) (vars s) (buf s ++ T).
Definition oext (T : list N) (o : out) : out := match o with Next s => Next (ext T s) | Brk s => Brk (ext T s) | Done s r => Done (ext T s) r end.
Definition panics (o : out) : Prop := exists s, o = Done s Fault.
Lemma view_ext L T s : List.length (buf s) = L -> view L (ext T s) = s.
Proof. destruct s as [f v b]. unfold view, ext. cbn. intros <-. rewrite firstn_app, Nat.sub_diag, firstn_all, firstn_O, app_nil_r. reflexivity. Qed.
Lemma put_ext b i s b' T : put b i s = Ok b' -> put (b ++ T) i s = Ok (b' ++ T) /\ List.length b' = List.length b.
Proof.
  unfold put. destruct (Nat.leb_spec (i + List.length s) (List.length b)) as [H|H]; [|discriminate]. intros [= <-]. rewrite app_length.
  destruct (Nat.leb_spec (i + List.length s) (List.length b + List.length T)); [|lia]. split.
  - f_equal. rewrite firstn_app, skipn_app, <- !app_assoc. replace (i - List.length b) with 0 by lia. replace (i + List.length s - List.length b) with 0 by lia. reflexivity.
  - rewrite !app_length, firstn_length, skipn_length. lia.
Qed.
Lemma copy_ext b i j s b' T : copy_range b i j s = Ok b' -> copy_range (b ++ T) i j s = Ok (b' ++ T) /\ List.length b' = List.length b.
Proof.
  unfold copy_range. destruct (Nat.leb_spec i j) as [H|H]; [|discriminate]. destruct (Nat.leb_spec j (List.length b)) as [K|K]; [|discriminate]. cbn [andb]. intros [= <-]. rewrite app_length.
  destruct (Nat.leb_spec j (List.length b + List.length T)); [|lia]. pose proof (firstn_le_length (j - i) s) as F. pose proof (firstn_length (j - i) s) as G. split.
  - cbn [andb]. f_equal. rewrite firstn_app, skipn_app, <- !app_assoc. replace (i - List.length b) with 0 by lia.
    replace (i + List.length (firstn (j - i) s) - List.length b) with 0 by lia. reflexivity.
  - rewrite !app_length, firstn_length, skipn_length. lia.
Qed.
Lemma put_be_ext k b i j x b' T : put_be k b i j x = Ok b' -> put_be k (b ++ T) i j x = Ok (b' ++ T) /\ List.length b' = List.length b.
Proof.
  unfold put_be, slice. destruct (Nat.leb_spec i j) as [H|H]; [|discriminate]. destruct (Nat.leb_spec j (List.length b)) as [K|K]; [|discriminate]. cbn [andb bind].
  rewrite app_length. destruct (Nat.leb_spec j (List.length b + List.length T)); [|lia]. cbn [andb bind]. rewrite !firstn_length, !skipn_length, app_length.
  replace (Nat.min (j - i) (List.length b + List.length T - i)) with (Nat.min (j - i) (List.length b - i)) by lia.
  destruct (_ <? k); [discriminate|]. apply put_ext.
Qed.
Lemma put_lt b i x b' : put b i [x] = Ok b' -> i < List.length b.
Proof. unfold put. cbn [List.length]. destruct (Nat.leb_spec (i + 1) (List.length b)); [lia|discriminate]. Qed.

Section Sim.
Variables (n L : nat) (T : list N).
(** if the run on the slice alone does not panic, then the run with further memory is the same, and the further memory is as it was *)
Definition sim (c : stmt) : Prop := forall s, List.length (buf s) = L -> ~ panics (exec n c s) -> xexec n L c (ext T s) = oext T (exec n c s).
Lemma keeps c s : List.length (buf s) = L -> List.length (buf (at_end (exec n c s))) = L.
Proof. intros <-. apply buf_length. Qed.
Lemma not_fault s : panics (Done s Fault). Proof. now exists s. Qed.
Lemma xexec_loop a s : xexec n L (SLoop a) s = (fix go k s := match k with O => Done s Fuel | S k => match xexec n L a s with Next s => go k s | Brk s => Next s | Done s r => Done s r end end) n s.
Proof. reflexivity. Qed.
Theorem simulates c : sim c.
Proof.
  induction c as [|a IHa b IHb|a IH|x e|x e|x y e|x e|i e|k lo hi e|k x e|lo hi e|t a IH|a IH|x y a IH| |e|]; intros s Ls NP.
  - reflexivity.
  - cbn [xexec exec] in *. assert (Na : ~ panics (exec n a s)) by (intros [u E]; apply NP; rewrite E; apply not_fault).
    rewrite (IHa s Ls Na). pose proof (@keeps a s Ls) as K. destruct (exec n a s) as [u|u|u r]; cbn [oext at_end] in *; try reflexivity. now apply IHb.
  - cbn [xexec exec] in *. assert (Na : ~ panics (exec n a s)) by (intros [u E]; apply NP; rewrite E; apply not_fault).
    rewrite (IH s Ls Na). destruct (exec n a s) as [u|u|u r]; reflexivity.
  - cbn [xexec exec] in *. rewrite view_ext by exact Ls. destruct (eval s e); reflexivity.
  - cbn [xexec exec] in *. rewrite view_ext by exact Ls. destruct (eval s e); try reflexivity. cbn [fails ext flds] in *. destruct (look x (flds s)); reflexivity.
  - cbn [xexec exec] in *. rewrite view_ext by exact Ls. destruct (v <- eval s e ;; p <- oct v ;; decode_plmn p) as [[m m']| | |]; reflexivity.
  - cbn [xexec exec] in *. rewrite view_ext by exact Ls. destruct (v <- eval s e ;; oct v) as [p| | |]; try reflexivity. cbn [fails ext flds] in *.
    destruct (look x (flds s)) as [[]|]; reflexivity.
  - cbn [xexec exec] in *. rewrite view_ext by exact Ls. destruct (eval s e) as [v| | |]; try reflexivity. cbn [bind] in *. destruct (num v) as [z| | |]; try reflexivity. cbn [bind] in *.
    destruct (eval s i) as [w| | |]; try reflexivity. cbn [bind] in *. destruct (int w) as [j| | |]; try reflexivity. cbn [bind ext buf] in *.
    destruct (put (buf s) j [z]) as [b| | |] eqn:P; try (exfalso; apply NP; apply not_fault); try (unfold put in P; destruct (_ <=? _); discriminate P).
    pose proof (@put_lt _ _ _ _ P). destruct (Nat.ltb_spec j L); [|lia]. destruct (@put_ext _ _ _ _ T P) as [-> _]. reflexivity.
  - cbn [xexec exec] in *. rewrite view_ext by exact Ls. destruct (eval s lo) as [v1| | |]; try reflexivity. cbn [bind] in *. destruct (int v1) as [i| | |]; try reflexivity. cbn [bind] in *.
    destruct (eval s hi) as [v2| | |]; try reflexivity. cbn [bind] in *. destruct (int v2) as [j| | |]; try reflexivity. cbn [bind] in *.
    destruct (eval s e) as [v3| | |]; try reflexivity. cbn [bind] in *. destruct (num v3) as [x| | |]; try reflexivity. cbn [bind ext buf] in *.
    destruct (put_be k (buf s) i j x) as [b| | |] eqn:P; try (exfalso; apply NP; apply not_fault).
    + destruct (@put_be_ext _ _ _ _ _ _ T P) as [-> _]. reflexivity.
    + exfalso. unfold put_be, slice, put in P. destruct (_ && _); cbn [bind] in P; [|discriminate]. destruct (_ <? _); [discriminate|]. destruct (_ <=? _); discriminate.
    + exfalso. unfold put_be, slice, put in P. destruct (_ && _); cbn [bind] in P; [|discriminate]. destruct (_ <? _); [discriminate|]. destruct (_ <=? _); discriminate.
  - cbn [xexec exec] in *. rewrite view_ext by exact Ls. cbn [ext vars]. destruct (of_look (look x (vars s))) as [w| | |]; try reflexivity. cbn [bind] in *. destruct (oct w) as [d| | |]; try reflexivity.
    cbn [bind] in *. destruct (eval s e) as [v| | |]; try reflexivity. cbn [bind] in *. destruct (num v) as [y| | |]; try reflexivity. cbn [bind] in *. destruct (put d 0 (be k y)); reflexivity.
  - cbn [xexec exec] in *. rewrite view_ext by exact Ls. destruct (eval s lo) as [v1| | |]; try reflexivity. cbn [bind] in *. destruct (int v1) as [i| | |]; try reflexivity. cbn [bind] in *.
    destruct (eval s hi) as [v2| | |]; try reflexivity. cbn [bind] in *. destruct (int v2) as [j| | |]; try reflexivity. cbn [bind] in *.
    destruct (eval s e) as [v3| | |]; try reflexivity. cbn [bind] in *. destruct (oct v3) as [x| | |]; try reflexivity. cbn [bind ext buf] in *.
    destruct (copy_range (buf s) i j x) as [b| | |] eqn:P; try (exfalso; apply NP; apply not_fault); try (unfold copy_range in P; destruct (_ && _); discriminate P).
    destruct (@copy_ext _ _ _ _ _ T P) as [-> _]. reflexivity.
  - cbn [xexec exec] in *. rewrite view_ext by exact Ls. destruct (test s t) as [[]| | |]; cbn [fails] in *; try reflexivity. now apply IH.
  - rewrite exec_loop in *. rewrite xexec_loop.
    match goal with |- ?f n _ = _ => set (xloop := f) end.
    assert (G : forall k s, List.length (buf s) = L -> ~ panics (loop n k a s) -> xloop k (ext T s) = oext T (loop n k a s)); [|now apply G].
    clear s Ls NP. induction k as [|k IHk]; intros s Ls NP; [reflexivity|]. cbn [loop] in *. change (xloop (S k) (ext T s)) with (match xexec n L a (ext T s) with Next s => xloop k s | Brk s => Next s | Done s r => Done s r end).
    assert (Na : ~ panics (exec n a s)) by (intros [u E]; apply NP; rewrite E; apply not_fault). rewrite (IH s Ls Na).
    pose proof (@keeps a s Ls) as K. destruct (exec n a s) as [u|u|u r]; cbn [oext at_end] in *; try reflexivity. now apply IHk.
  - rewrite exec_range in *. cbn [xexec ext flds]. destruct (look y (flds s)) as [[]|]; try reflexivity.
    match goal with |- ?f l _ = _ => set (xrange := f) end. change (St (flds s) (vars s) (buf s ++ T)) with (ext T s).
    assert (G : forall l s, List.length (buf s) = L -> ~ panics (range n x a l s) -> xrange l (ext T s) = oext T (range n x a l s)); [|now apply G].
    clear s Ls NP l. induction l as [|p l IHl]; intros s Ls NP; [reflexivity|]. cbn [range] in *.
    change (xrange (p :: l) (ext T s)) with (match xexec n L a (ext T (setv x (GS p) s)) with Next s => xrange l s | Brk s => Next s | Done s r => Done s r end).
    assert (Na : ~ panics (exec n a (setv x (GS p) s))) by (intros [u E]; apply NP; rewrite E; apply not_fault). rewrite (IH (setv x (GS p) s) Ls Na).
    pose proof (@keeps a (setv x (GS p) s) Ls) as K. destruct (exec n a (setv x (GS p) s)) as [u|u|u r]; cbn [oext at_end] in *; try reflexivity. now apply IHl.
  - reflexivity.
  - cbn [xexec exec] in *. rewrite view_ext by exact Ls. destruct (eval s e); reflexivity.
  - reflexivity.
Qed.
End Sim.

(** no spare capacity *)
Lemma view_all s : view (List.length (buf s)) s = s.
Proof. destruct s as [f v b]. unfold view. cbn. now rewrite firstn_all. Qed.
Lemma put_chk b i x : (if i <? List.length b then put b i [x] else Fault) = put b i [x].
Proof. destruct (Nat.ltb_spec i (List.length b)); [reflexivity|]. unfold put. cbn [List.length]. destruct (Nat.leb_spec (i + 1) (List.length b)); [lia|reflexivity]. Qed.
Theorem without n c : forall L s, List.length (buf s) = L -> xexec n L c s = exec n c s.
Proof.
  induction c as [|a IHa b IHb|a IH|x e|x e|x y e|x e|i e|k lo hi e|k x e|lo hi e|t a IH|a IH|x y a IH| |e|]; intros L s Ls; try reflexivity;
    try (cbn [xexec exec]; subst L; rewrite ?view_all; reflexivity).
  - cbn [xexec exec]. rewrite (IHa L s Ls). pose proof (buf_length n a s) as K. destruct (exec n a s) as [u|u|u r]; cbn [at_end] in *; try reflexivity. apply IHb. congruence.
  - cbn [xexec exec]. now rewrite (IH L s Ls).
  - cbn [xexec exec]. subst L. rewrite view_all. destruct (eval s e) as [v| | |]; try reflexivity. cbn [bind]. destruct (num v) as [z| | |]; try reflexivity. cbn [bind].
    destruct (eval s i) as [w| | |]; try reflexivity. cbn [bind]. destruct (int w) as [j| | |]; try reflexivity. cbn [bind]. now rewrite put_chk.
  - cbn [xexec exec]. rewrite <- Ls at 1. rewrite view_all. destruct (test s t) as [[]| | |]; cbn [fails]; try reflexivity. now apply IH.
  - rewrite exec_loop, xexec_loop. match goal with |- ?f n _ = _ => set (xloop := f) end.
    assert (G : forall k s, List.length (buf s) = L -> xloop k s = loop n k a s); [|now apply G].
    clear s Ls. induction k as [|k IHk]; intros s Ls; [reflexivity|]. cbn [loop]. change (xloop (S k) s) with (match xexec n L a s with Next s => xloop k s | Brk s => Next s | Done s r => Done s r end).
    rewrite (IH L s Ls). pose proof (buf_length n a s) as K. destruct (exec n a s) as [u|u|u r]; cbn [at_end] in *; try reflexivity. apply IHk. congruence.
  - rewrite exec_range. cbn [xexec]. destruct (look y (flds s)) as [[]|]; try reflexivity. match goal with |- ?f l _ = _ => set (xrange := f) end.
    assert (G : forall l s, List.length (buf s) = L -> xrange l s = range n x a l s); [|now apply G].
    clear s Ls l. induction l as [|p l IHl]; intros s Ls; [reflexivity|]. cbn [range].
    change (xrange (p :: l) s) with (match xexec n L a (setv x (GS p) s) with Next s => xrange l s | Brk s => Next s | Done s r => Done s r end).
    rewrite (IH L (setv x (GS p) s) Ls). pose proof (buf_length n a (setv x (GS p) s)) as K. cbn [setv buf] in K.
    destruct (exec n a (setv x (GS p) s)) as [u|u|u r]; cbn [at_end] in *; try reflexivity. apply IHl. congruence.
Qed.
