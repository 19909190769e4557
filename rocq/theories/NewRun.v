(** Running the constructors listed in NewTable.v. *)
From Coq Require Import Floats.SpecFloat.
From Verif Require Import Base IETypes IE Bits Codec Access AccTable New NewTable.
Set Implicit Arguments.

Section Run.
Variable g : N -> bool.
Variable beyond : spec_float -> N.

(** a constructor with the given type and body; Ok None is nil *)
Definition make_ie (t : N) (s : shape) : sarg s -> res (option ie) :=
  match s return sarg s -> res (option ie) with
  | SGroup => fun l => new_grouped g t 0 l
  | SGroup1 => fun x => new_grouped g t 0 [x]
  | SGroup2 => fun '(x, y) => new_grouped g t 0 [x; y]
  | SGroupT => fun '(t, l) => new_grouped g t 0 l
  | SGroupT1 => fun '(t, x) => new_grouped g t 0 [x]
  | s => fun a => p <- build beyond s a ;; Ok (option_map (new t) p)
  end.

(** c is a constructor of shape s; called with the arguments a it returns r.  (NewUpdateBAR, NewUsageReport, NewTSCManagementInformation and
    NewPortManagementInformationForTSC, which have no type of their own, find it in a.) *)
Definition calls (c : con) (s : shape) (a : sarg s) (r : res (option ie)) : Prop :=
  con_shape c = s /\ make_ie (match con_type c with Some t => t | None => 0%N end) s a = r.
End Run.
