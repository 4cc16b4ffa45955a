(** * More specifications, independent of the model: used by C15, C60-C73 *)

From Verif Require Import GoBase Spec.

(** ** Counting *)

(** [S] lists every byte string of length [L], each once. *)
Definition all_streams (L : nat) (S : list (list byte)) : Prop :=
  NoDup S /\ forall rd, In rd S <-> length rd = L.

(** [f] holds of exactly [n] elements of [S]. *)
Definition holds_for {A} (f : A -> Prop) (S : list A) (n : nat) : Prop :=
  exists T, NoDup T /\ (forall a, In a T <-> In a S /\ f a) /\ length T = n.

(** [gen] called [j] times in a row on the random stream [rd]: the results and
    what is left of the stream. *)
Fixpoint draw {K} (gen : list byte -> outcome (K * list byte)) (j : nat) (rd : list byte)
  : outcome (list K * list byte) :=
  match j with
  | O => Ret ([], rd)
  | S j' => let* (k, rd') := gen rd in let* (ks, rest) := draw gen j' rd' in Ret (k :: ks, rest)
  end.

(** [S] lists every sequence of [n] words of [l], each once. *)
Definition all_phrases (l : list gostring) (n : nat) (S : list (list gostring)) : Prop :=
  NoDup S /\ forall ws, In ws S <-> length ws = n /\ Forall (fun w => In w l) ws.

(** ** Adding up many keys *)

(** One after the other, from the left; the first error or panic is the result. *)
Fixpoint add_up {K} (add : K -> K -> outcome (result K)) (k : K) (ks : list K) : outcome (result K) :=
  match ks with
  | [] => Ret (Ok k)
  | k' :: ks' => let* r := add k k' in let? s := r in add_up add s ks'
  end.

(** The sum of a list of numbers. *)
Definition total (xs : list Z) : Z := fold_right Z.add 0%Z xs.

(** ** Phrases *)

(** The text is empty, starts or ends with a space, or has two spaces in a row. *)
Definition stray_space (m : gostring) : Prop :=
  m = [] \/ (exists t, m = x20 :: t) \/ (exists t, m = t ++ [x20]) \/ (exists a b, m = a ++ x20 :: x20 :: b).

(** U+3000 in UTF-8, which separates the words of Japanese BIP-39 phrases. *)
Definition ideographic_space : gostring := [xe3; x80; x80].

(** The bits of word [w] in a list [l] that may have repeated words or more than
    2048: the binary number of the first position of [w], with zeros in front up
    to eleven bits. *)
Definition word_bits (l : list gostring) (w : gostring) (B : list bool) : Prop :=
  exists i, nth_error l i = Some w /\ (forall j, (j < i)%nat -> nth_error l j <> Some w) /\
    number 2 (map Z.b2z B) = Z.of_nat i /\
    (length B = 11%nat \/ (11 < length B)%nat /\ hd_error B = Some true).
