(** * Goroutines that run programs of calls at the same time (C98)

    Each goroutine runs a program of [SpecSession.v] on the source text, in the
    steps of [GoTree.v] and with the scheduler of [SpecConc.v]. What it holds at
    the start are values of the shared heap, and several goroutines may hold the
    same key. *)

From Coq Require Import String.
From Verif Require Import GoBase Model GoSem GoTree SpecSource SpecSession SpecRun SpecConc.

(** The call for a request, in steps: the string field of a key is read, the
    Network is made. It is [call_for] of [SpecRun.v]. *)
Definition entry : Type := string * list value * (list value -> option held).
Definition t_field (v : value) (x : string) (k : gostring -> tree (option entry)) : tree (option entry) :=
  match v with
  | VPtr a => TRead a (fun c =>
      match c with
      | Some (VStruct _ fs) =>
          match find (fun p => String.eqb x (fst p)) fs with Some (_, VStr t) => k t | _ => TRet None end
      | _ => TRet None
      end)
  | _ => TRet None
  end.
Definition t_net (n : network) (k : value -> tree (option entry)) : tree (option entry) :=
  TAlloc (network_cell n) (fun a => k (VPtr a)).
Definition t_call_for (k : list held) (r : request) : tree (option entry) :=
  match r with
  | Generate n => t_net n (fun v => TRet (Some ("GeneratePrivateKey", [v], a_key)))
  | EnterHex t n => t_net n (fun v => TRet (Some ("PrivateFromHex", [VStr t; v], a_private)))
  | EnterWIF t n => t_net n (fun v => TRet (Some ("PrivateFromWIF", [VStr t; v], a_private)))
  | EnterPublic t n => t_net n (fun v => TRet (Some ("PublicFromHex", [VStr t; v], a_public)))
  | SaveHex i n =>
      match nth_error k i with
      | Some (HPrivate p) => t_field p "Hex" (fun t =>
          t_net n (fun v => TRet (Some ("PrivateFromHex", [VStr t; v], a_private))))
      | _ => TRet None
      end
  | SaveWIF i n =>
      match nth_error k i with
      | Some (HPrivate p) => t_field p "WIF" (fun t =>
          t_net n (fun v => TRet (Some ("PrivateFromWIF", [VStr t; v], a_private))))
      | _ => TRet None
      end
  | Add i j => match nth_error k i, nth_error k j with
               | Some (HPrivate v), Some (HPrivate w) => TRet (Some ("AddPrivateKeys", [v; w], a_private))
               | _, _ => TRet None
               end
  | Multiply i j => match nth_error k i, nth_error k j with
                    | Some (HPrivate v), Some (HPrivate w) => TRet (Some ("MultiplyPrivateKeys", [v; w], a_private))
                    | _, _ => TRet None
                    end
  | Publish i => match nth_error k i with
                 | Some (HPrivate v) => TRet (Some ("PrivateKey.GetPublicKey", [v], a_published))
                 | _ => TRet None
                 end
  | AddPublished i j c => match nth_error k i, nth_error k j with
                          | Some (HPublic v), Some (HPublic w) => TRet (Some ("AddPublicKeys", [v; w; VBool c], a_public))
                          | _, _ => TRet None
                          end
  | Export i c => match nth_error k i with
                  | Some (HPublic v) => TRet (Some ("PublicKey.Format", [v; VBool c], a_text))
                  | _ => TRet None
                  end
  | Import i n => match nth_error k i with
                  | Some (HText t) => t_net n (fun v => TRet (Some ("PublicFromHex", [VStr t; v], a_public)))
                  | _ => TRet None
                  end
  | AddressOf i c => match nth_error k i with
                     | Some (HPublic v) => TRet (Some ("PublicKey.Address", [v; VBool c], an_address))
                     | _ => TRet None
                     end
  end%string.

(** All requests one after the other; the result is what is held in the end. *)
Fixpoint t_program_on (E : curve_params -> ecdsa_lib) (wrap : Z -> Z) (n : nat) (k : list held) (rs : list request) : tree (list held) :=
  match rs with
  | [] => TRet k
  | r :: rs' =>
      tbind (t_call_for k r) (fun oc =>
        match oc with
        | None => t_program_on E wrap n (k ++ [HUnfit]) rs'
        | Some (f, args, take) =>
            tbind (t_run_on E wrap n f args) (fun vs =>
              match take vs with Some x => t_program_on E wrap n (k ++ [x]) rs' | None => TStuck end)
        end)
  end.

(** A goroutine at the start: what it holds and what that means, its program, and
    the random bytes it will get. *)
Record member := Member { holds : list held; knows : list meaning; plan : list request; gets : list byte }.
Definition crew_start_on E wrap (n : nat) (sh : list value) (ms : list member) : world (list held) :=
  World sh (map (fun m => Thread (t_program_on E wrap n (holds m) (plan m)) [] (gets m) []) ms).
(** with ints without limits *)
Notation t_program E := (t_program_on E (fun z => z)).
Notation crew_start E := (crew_start_on E (fun z => z)).

(** the networks of what is known are proper ones *)
Definition proper (m : meaning) : Prop :=
  match m with
  | MPrivate n _ _ | MPublic n _ | MAddress n _ _ => whole_bytes n
  | _ => True
  end.
Definition ready (sh : list value) (m : member) : Prop :=
  Forall2 (carries sh) (holds m) (knows m) /\ Forall proper (knows m) /\ Forall sensible (plan m).
