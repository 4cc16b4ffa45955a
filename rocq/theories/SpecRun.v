(** * Running a program of calls on the source text (C95)

    The requests of [SpecSession.v], each made as a call of the Go source: the
    program keeps the Go values it was given, and its later calls are made with
    them, on the heap the earlier calls left. [L] are the limits of the machine;
    [runs] is without limits. *)

From Coq Require Import String.
From Verif Require Import GoBase Model GoSem SpecSource SpecSession.
Local Open Scope Z_scope.

(** what the program has in hand after a call *)
Inductive held :=
| HPrivate (v : value) | HPublic (v : value) | HText (t : gostring) | HAddress (t : gostring)
| HError (e : goerror) | HNoKey | HUnfit.

(** the string field [x] of the object behind a pointer *)
Definition text_field (h : list value) (v : value) (x : string) : option gostring :=
  match v with
  | VPtr a =>
      match nth_error h a with
      | Some (VStruct _ fs) =>
          match find (fun p => String.eqb x (fst p)) fs with Some (_, VStr t) => Some t | _ => None end
      | _ => None
      end
  | _ => None
  end.

(** what a call has returned *)
Definition a_key (vs : list value) : option held :=
  match vs with [v] => Some (HPrivate v) | _ => None end.
Definition a_private (vs : list value) : option held :=
  match vs with [v; VNil] => Some (HPrivate v) | [_; VErr e] => Some (HError e) | _ => None end.
Definition a_public (vs : list value) : option held :=
  match vs with [v; VNil] => Some (HPublic v) | [_; VErr e] => Some (HError e) | _ => None end.
Definition a_published (vs : list value) : option held :=
  match vs with [v; VBool true] => Some (HPublic v) | [_; VBool false] => Some HNoKey | _ => None end.
Definition a_text (vs : list value) : option held :=
  match vs with [VStr t] => Some (HText t) | _ => None end.
Definition an_address (vs : list value) : option held :=
  match vs with [VStr t; VNil] => Some (HAddress t) | [_; VErr e] => Some (HError e) | _ => None end.

(** A call: the objects the program makes for it (a Network), the function, its
    arguments, and how the results are taken. *)
Record call := Call { made : list value; name : string; arguments : list value; taken : list value -> option held }.

(** The call for a request; [None] when an operand is not of the kind needed. *)
Definition call_for (k : list held) (h : list value) (r : request) : option call :=
  let net := VPtr (length h) in
  match r with
  | Generate n => Some (Call [network_cell n] "GeneratePrivateKey" [net] a_key)
  | EnterHex t n => Some (Call [network_cell n] "PrivateFromHex" [VStr t; net] a_private)
  | EnterWIF t n => Some (Call [network_cell n] "PrivateFromWIF" [VStr t; net] a_private)
  | EnterPublic t n => Some (Call [network_cell n] "PublicFromHex" [VStr t; net] a_public)
  | SaveHex i n =>
      match nth_error k i with
      | Some (HPrivate v) => match text_field h v "Hex" with
                             | Some t => Some (Call [network_cell n] "PrivateFromHex" [VStr t; net] a_private)
                             | None => None
                             end
      | _ => None
      end
  | SaveWIF i n =>
      match nth_error k i with
      | Some (HPrivate v) => match text_field h v "WIF" with
                             | Some t => Some (Call [network_cell n] "PrivateFromWIF" [VStr t; net] a_private)
                             | None => None
                             end
      | _ => None
      end
  | Add i j => match nth_error k i, nth_error k j with
               | Some (HPrivate v), Some (HPrivate w) => Some (Call [] "AddPrivateKeys" [v; w] a_private)
               | _, _ => None
               end
  | Multiply i j => match nth_error k i, nth_error k j with
                    | Some (HPrivate v), Some (HPrivate w) => Some (Call [] "MultiplyPrivateKeys" [v; w] a_private)
                    | _, _ => None
                    end
  | Publish i => match nth_error k i with
                 | Some (HPrivate v) => Some (Call [] "PrivateKey.GetPublicKey" [v] a_published)
                 | _ => None
                 end
  | AddPublished i j c => match nth_error k i, nth_error k j with
                          | Some (HPublic v), Some (HPublic w) => Some (Call [] "AddPublicKeys" [v; w; VBool c] a_public)
                          | _, _ => None
                          end
  | Export i c => match nth_error k i with
                  | Some (HPublic v) => Some (Call [] "PublicKey.Format" [v; VBool c] a_text)
                  | _ => None
                  end
  | Import i n => match nth_error k i with
                  | Some (HText t) => Some (Call [network_cell n] "PublicFromHex" [VStr t; net] a_public)
                  | _ => None
                  end
  | AddressOf i c => match nth_error k i with
                     | Some (HPublic v) => Some (Call [] "PublicKey.Address" [v; VBool c] an_address)
                     | _ => None
                     end
  end%string.

Section Run.
Context (E : curve_params -> ecdsa_lib) (L : limits).

(** One request: the call returns, or it panics. *)
Definition steps_on (k : list held) (s : state) (r : request) (x : held) (s' : state) : Prop :=
  match call_for k (heap s) r with
  | None => x = HUnfit /\ s' = s
  | Some c => exists vs,
      ends_above E L (name c) (arguments c) (State (heap s ++ made c) (source s) (logged s)) (Done vs s') /\
      taken c vs = Some x
  end.
Definition panics_on (k : list held) (s : state) (r : request) (p : panic) : Prop :=
  exists c s', call_for k (heap s) r = Some c /\
    ends_above E L (name c) (arguments c) (State (heap s ++ made c) (source s) (logged s)) (Crash p s').

(** All requests one after the other; [k] is what the program holds so far. *)
Inductive runs_on : list held -> state -> list request -> list held -> state -> Prop :=
| runs_end k s : runs_on k s [] k s
| runs_step k s r rs x s1 k' s' :
    steps_on k s r x s1 -> runs_on (k ++ [x]) s1 rs k' s' -> runs_on k s (r :: rs) k' s'.
Inductive dies_on : list held -> state -> list request -> panic -> Prop :=
| dies_now k s r rs p : panics_on k s r p -> dies_on k s (r :: rs) p
| dies_later k s r rs x s1 p : steps_on k s r x s1 -> dies_on (k ++ [x]) s1 rs p -> dies_on k s (r :: rs) p.
End Run.

(** the same without limits *)
Notation steps E := (steps_on E (unbounded O)).
Notation panics E := (panics_on E (unbounded O)).
Notation runs E := (runs_on E (unbounded O)).
Notation dies E := (dies_on E (unbounded O)).

(** The values held, read on the heap, are the answer [a]. *)
Definition shows (h : list value) (x : held) (a : answer) : Prop :=
  match x, a with
  | HPrivate v, APrivate k => is_priv h v k
  | HPublic v, APublic p => is_pub h v p
  | HText t, AText t' | HAddress t, AAddress t' => t = t'
  | HError e, AError e' => e = e'
  | HNoKey, ANoKey | HUnfit, AUnfit => True
  | _, _ => False
  end.
(** What is held has the meaning [m]. *)
Definition carries (h : list value) (x : held) (m : meaning) : Prop :=
  exists a, stands_for m a /\ shows h x a.
