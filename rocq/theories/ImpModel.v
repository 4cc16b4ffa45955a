(** * The functions with loops, statement by statement

    [Model.v] writes these functions with structural recursion. Here they are
    the Go statements themselves, with their local variables, [for] loops,
    [break] and early returns, run by [Imp.exec]. [PropertiesLoops.v] proves
    that every run ends, and ends as in [Model.v].

    The types of variables are as in [Model.v]. Integers are unbounded:
    they index strings and lists, and C101 is about ints that wrap around. *)

From Verif Require Import GoBase GoNum Sha256 GoRand Model Imp.
Local Open Scope Z_scope.

Declare Scope cmd_scope.
Delimit Scope cmd_scope with cmd.
Notation "a ;; b" := (Seq a b) (at level 61, right associativity) : cmd_scope.
Local Open Scope cmd_scope.

(** What a caller sees of a run, given how to read the log off the state:
    the log lines and the value or panic. [None]: the body ran off its end,
    which Go's compiler excludes. *)
Definition observed {S R} (log : S -> list gostring) (e : ending S R) : option (list gostring * outcome R) :=
  match e with
  | Returned s r => Some (log s, Ret r)
  | Crashed s p => Some (log s, Panic p)
  | Next _ | Broken _ => None
  end.

(** ** public_key.go:76-105 *)

(** The local variables of Format, and the bit it tests. *)
Record format_vars := FV {
  f_key : gostring;
  f_pXHex : gostring;
  f_pYHex : gostring;
  f_odd : Z }.
Definition f_set_key (v : gostring) (s : format_vars) : format_vars := FV v (f_pXHex s) (f_pYHex s) (f_odd s).
Definition f_set_pXHex (v : gostring) (s : format_vars) : format_vars := FV (f_key s) v (f_pYHex s) (f_odd s).
Definition f_set_pYHex (v : gostring) (s : format_vars) : format_vars := FV (f_key s) (f_pXHex s) v (f_odd s).
Definition f_set_odd (v : Z) (s : format_vars) : format_vars := FV (f_key s) (f_pXHex s) (f_pYHex s) v.

Definition format_start : format_vars := FV [] [] [] 0.

(** public_key.go:76-105 *)
Definition Format_body (p : public_key) (compressed : bool) : cmd format_vars gostring :=
  Set_ (f_set_key []) ;;                                                          (* 77 *)
  Set_ (f_set_pXHex (bigIntToHex (PX p))) ;;                                      (* 80 *)
  Set_ (f_set_pYHex (bigIntToHex (PY p))) ;;                                      (* 81 *)
  For (fun s => len (f_pXHex s) <? 64) (fun s => s)                               (* 84-86 *)
    (Set_ (fun s => f_set_pXHex (str "0" ++ f_pXHex s) s)) ;;
  For (fun s => len (f_pYHex s) <? 64) (fun s => s)                               (* 87-89 *)
    (Set_ (fun s => f_set_pYHex (str "0" ++ f_pYHex s) s)) ;;
  If (fun _ => negb compressed)                                                   (* 91 *)
    (Set_ (fun s => f_set_key (f_key s ++ str "04") s) ;;                         (* 92 *)
     Set_ (fun s => f_set_key (f_key s ++ f_pXHex s) s) ;;                        (* 94 *)
     Set_ (fun s => f_set_key (f_key s ++ f_pYHex s) s))                          (* 95 *)
    (Do (fun s => match PY p with Some y => Ret (f_set_odd (big_bit y 0) s) | None => Panic PNil end) ;;  (* 97 *)
     If (fun s => f_odd s =? 0)
       (Set_ (fun s => f_set_key (f_key s ++ str "02") s))                        (* 98 *)
       (Set_ (fun s => f_set_key (f_key s ++ str "03") s)) ;;                     (* 100 *)
     Set_ (fun s => f_set_key (f_key s ++ f_pXHex s) s)) ;;                       (* 102 *)
  Return f_key.                                                                   (* 104 *)

(** ** mnemonic.go:15-74 *)

(** The local variables of NewSeedFromMnemonic: [k] is the hidden counter of
    [range words], [w] the [i] of line 20, [decoded] the pair of line 53,
    [head] the slice of line 67. [log]: what log.Println was given. *)
Record seed_vars := SV {
  s_binary : gostring;
  s_k : Z;
  s_index : Z;
  s_w : Z;
  s_indexBinary : gostring;
  s_hash : gostring;
  s_i : Z;
  s_j : Z;
  s_n : gostring;
  s_checksum : gostring;
  s_decoded : result (list byte);
  s_shaHashHex : gostring;
  s_head : gostring;
  s_log : list gostring }.
Definition s_set_binary (v : gostring) (s : seed_vars) : seed_vars := SV v (s_k s) (s_index s) (s_w s) (s_indexBinary s) (s_hash s) (s_i s) (s_j s) (s_n s) (s_checksum s) (s_decoded s) (s_shaHashHex s) (s_head s) (s_log s).
Definition s_set_k (v : Z) (s : seed_vars) : seed_vars := SV (s_binary s) v (s_index s) (s_w s) (s_indexBinary s) (s_hash s) (s_i s) (s_j s) (s_n s) (s_checksum s) (s_decoded s) (s_shaHashHex s) (s_head s) (s_log s).
Definition s_set_index (v : Z) (s : seed_vars) : seed_vars := SV (s_binary s) (s_k s) v (s_w s) (s_indexBinary s) (s_hash s) (s_i s) (s_j s) (s_n s) (s_checksum s) (s_decoded s) (s_shaHashHex s) (s_head s) (s_log s).
Definition s_set_w (v : Z) (s : seed_vars) : seed_vars := SV (s_binary s) (s_k s) (s_index s) v (s_indexBinary s) (s_hash s) (s_i s) (s_j s) (s_n s) (s_checksum s) (s_decoded s) (s_shaHashHex s) (s_head s) (s_log s).
Definition s_set_indexBinary (v : gostring) (s : seed_vars) : seed_vars := SV (s_binary s) (s_k s) (s_index s) (s_w s) v (s_hash s) (s_i s) (s_j s) (s_n s) (s_checksum s) (s_decoded s) (s_shaHashHex s) (s_head s) (s_log s).
Definition s_set_hash (v : gostring) (s : seed_vars) : seed_vars := SV (s_binary s) (s_k s) (s_index s) (s_w s) (s_indexBinary s) v (s_i s) (s_j s) (s_n s) (s_checksum s) (s_decoded s) (s_shaHashHex s) (s_head s) (s_log s).
Definition s_set_i (v : Z) (s : seed_vars) : seed_vars := SV (s_binary s) (s_k s) (s_index s) (s_w s) (s_indexBinary s) (s_hash s) v (s_j s) (s_n s) (s_checksum s) (s_decoded s) (s_shaHashHex s) (s_head s) (s_log s).
Definition s_set_j (v : Z) (s : seed_vars) : seed_vars := SV (s_binary s) (s_k s) (s_index s) (s_w s) (s_indexBinary s) (s_hash s) (s_i s) v (s_n s) (s_checksum s) (s_decoded s) (s_shaHashHex s) (s_head s) (s_log s).
Definition s_set_n (v : gostring) (s : seed_vars) : seed_vars := SV (s_binary s) (s_k s) (s_index s) (s_w s) (s_indexBinary s) (s_hash s) (s_i s) (s_j s) v (s_checksum s) (s_decoded s) (s_shaHashHex s) (s_head s) (s_log s).
Definition s_set_checksum (v : gostring) (s : seed_vars) : seed_vars := SV (s_binary s) (s_k s) (s_index s) (s_w s) (s_indexBinary s) (s_hash s) (s_i s) (s_j s) (s_n s) v (s_decoded s) (s_shaHashHex s) (s_head s) (s_log s).
Definition s_set_decoded (v : result (list byte)) (s : seed_vars) : seed_vars := SV (s_binary s) (s_k s) (s_index s) (s_w s) (s_indexBinary s) (s_hash s) (s_i s) (s_j s) (s_n s) (s_checksum s) v (s_shaHashHex s) (s_head s) (s_log s).
Definition s_set_shaHashHex (v : gostring) (s : seed_vars) : seed_vars := SV (s_binary s) (s_k s) (s_index s) (s_w s) (s_indexBinary s) (s_hash s) (s_i s) (s_j s) (s_n s) (s_checksum s) (s_decoded s) v (s_head s) (s_log s).
Definition s_set_head (v : gostring) (s : seed_vars) : seed_vars := SV (s_binary s) (s_k s) (s_index s) (s_w s) (s_indexBinary s) (s_hash s) (s_i s) (s_j s) (s_n s) (s_checksum s) (s_decoded s) (s_shaHashHex s) v (s_log s).
Definition s_set_log (v : list gostring) (s : seed_vars) : seed_vars := SV (s_binary s) (s_k s) (s_index s) (s_w s) (s_indexBinary s) (s_hash s) (s_i s) (s_j s) (s_n s) (s_checksum s) (s_decoded s) (s_shaHashHex s) (s_head s) v.

Definition seed_start : seed_vars := SV [] 0 0 0 [] [] 0 0 [] [] (Ok []) [] [] [].

(** mnemonic.go:19-35, the body of the loop over the words. *)
Definition word_body (words l : list gostring) : cmd seed_vars (result (option (list byte))) :=
  Set_ (s_set_index (-1)) ;;                                                      (* 19 *)
  Set_ (s_set_w 0) ;;                                                             (* 20 *)
  For (fun s => s_w s <? Z.of_nat (length l)) (fun s => s_set_w (s_w s + 1) s)    (* 20 *)
    (If (fun s => str_eqb (nth (Z.to_nat (s_k s)) words []) (nth (Z.to_nat (s_w s)) l []))   (* 21 *)
       (Set_ (fun s => s_set_index (s_w s) s) ;; Break)                           (* 22-23 *)
       Skip) ;;
  If (fun s => s_index s <? 0) (Return (fun _ => Err EInvalidMnemonic)) Skip ;;   (* 26-28 *)
  Set_ (fun s => s_set_indexBinary (sprintf_b (s_index s)) s) ;;                  (* 30 *)
  For (fun s => len (s_indexBinary s) <? 11) (fun s => s)                         (* 31-33 *)
    (Set_ (fun s => s_set_indexBinary (str "0" ++ s_indexBinary s) s)) ;;
  Set_ (fun s => s_set_binary (s_binary s ++ s_indexBinary s) s).                 (* 35 *)

(** mnemonic.go:40-47, the body of the loop over groups of four digits. *)
Definition group_body : cmd seed_vars (result (option (list byte))) :=
  Set_ (s_set_n []) ;;                                                            (* 40 *)
  Set_ (fun s => s_set_j (s_i s) s) ;;                                            (* 41 *)
  For (fun s => s_j s - s_i s <? 4) (fun s => s_set_j (s_j s + 1) s)              (* 41 *)
    (Do (fun s => let* c := index (s_binary s) (s_j s) in Ret (s_set_n (s_n s ++ [c]) s))) ;;  (* 42 *)
  Set_ (fun s => s_set_log (s_log s ++ [s_n s]) s) ;;                             (* 44 *)
  Set_ (fun s => s_set_hash (s_hash s ++ bigIntToHex (set_string2 (s_n s))) s).   (* 45-47 *)

(** mnemonic.go:50-73, after the loops. *)
Definition check_body : cmd seed_vars (result (option (list byte))) :=
  Do (fun s => let* c := slice (s_hash s) (len (s_hash s) - 2) (len (s_hash s)) in Ret (s_set_checksum c s)) ;;  (* 50 *)
  Do (fun s => let* h := slice (s_hash s) 0 (len (s_hash s) - 2) in Ret (s_set_decoded (hex_decode h) s)) ;;     (* 52-53 *)
  If (fun s => match s_decoded s with Err _ => true | Ok _ => false end)          (* 54-56 *)
    (Return (fun s => match s_decoded s with Err e => Err e | Ok _ => Ok None end)) Skip ;;
  Set_ (fun s => match s_decoded s with                                           (* 57-61 *)
                 | Ok d => s_set_shaHashHex (bigIntToHex (Some (set_bytes (sha256 d)))) s
                 | Err _ => s end) ;;
  For (fun s => len (s_shaHashHex s) <? 64) (fun s => s)                          (* 63-65 *)
    (Set_ (fun s => s_set_shaHashHex (str "0" ++ s_shaHashHex s) s)) ;;
  Do (fun s => let* h := slice (s_shaHashHex s) 0 2 in Ret (s_set_head h s)) ;;   (* 67 *)
  If (fun s => negb (str_eqb (s_head s) (s_checksum s)))                          (* 67-69 *)
    (Return (fun _ => Err EInvalidChecksum)) Skip ;;
  Set_ (fun s => s_set_log (s_log s ++ [s_shaHashHex s ++ space :: sprintf_d (len (s_shaHashHex s))]) s) ;;      (* 71 *)
  Set_ (fun s => s_set_log (s_log s ++ [s_hash s ++ space :: s_checksum s]) s) ;; (* 72 *)
  Return (fun _ => Ok None).                                                      (* 73 *)

(** mnemonic.go:15-74 *)
Definition NewSeedFromMnemonic_body (mnemonic passphrase : gostring) (wl : wordlist)
  : cmd seed_vars (result (option (list byte))) :=
  let words := split_space mnemonic in                                            (* 16 *)
  Set_ (s_set_binary []) ;;                                                       (* 17 *)
  Set_ (s_set_k 0) ;;                                                             (* 18 *)
  For (fun s => s_k s <? Z.of_nat (length words)) (fun s => s_set_k (s_k s + 1) s)  (* 18 *)
    (word_body words (words_of wl)) ;;
  Set_ (s_set_hash []) ;;                                                         (* 38 *)
  Set_ (s_set_i 0) ;;                                                             (* 39 *)
  For (fun s => s_i s <? len (s_binary s)) (fun s => s_set_i (s_i s + 4) s)       (* 39 *)
    group_body ;;
  check_body.                                                                     (* 50-73 *)

(** ** mnemonic.go:77-147 *)

(** The local variables of NewMnemonic; [err]: line 107 returned an error.
    The function logs nothing. *)
Record mnemonic_vars := MV {
  m_checksumBinary : gostring;
  m_b : gostring;
  m_i : Z;
  m_j : Z;
  m_str : gostring;
  m_phrase : list gostring;
  m_entropy : Z;
  m_err : bool;
  m_binary : option Z }.
Definition m_set_checksumBinary (v : gostring) (s : mnemonic_vars) : mnemonic_vars := MV v (m_b s) (m_i s) (m_j s) (m_str s) (m_phrase s) (m_entropy s) (m_err s) (m_binary s).
Definition m_set_b (v : gostring) (s : mnemonic_vars) : mnemonic_vars := MV (m_checksumBinary s) v (m_i s) (m_j s) (m_str s) (m_phrase s) (m_entropy s) (m_err s) (m_binary s).
Definition m_set_i (v : Z) (s : mnemonic_vars) : mnemonic_vars := MV (m_checksumBinary s) (m_b s) v (m_j s) (m_str s) (m_phrase s) (m_entropy s) (m_err s) (m_binary s).
Definition m_set_j (v : Z) (s : mnemonic_vars) : mnemonic_vars := MV (m_checksumBinary s) (m_b s) (m_i s) v (m_str s) (m_phrase s) (m_entropy s) (m_err s) (m_binary s).
Definition m_set_str (v : gostring) (s : mnemonic_vars) : mnemonic_vars := MV (m_checksumBinary s) (m_b s) (m_i s) (m_j s) v (m_phrase s) (m_entropy s) (m_err s) (m_binary s).
Definition m_set_phrase (v : list gostring) (s : mnemonic_vars) : mnemonic_vars := MV (m_checksumBinary s) (m_b s) (m_i s) (m_j s) (m_str s) v (m_entropy s) (m_err s) (m_binary s).
Definition m_set_entropy (v : Z) (s : mnemonic_vars) : mnemonic_vars := MV (m_checksumBinary s) (m_b s) (m_i s) (m_j s) (m_str s) (m_phrase s) v (m_err s) (m_binary s).
Definition m_set_err (v : bool) (s : mnemonic_vars) : mnemonic_vars := MV (m_checksumBinary s) (m_b s) (m_i s) (m_j s) (m_str s) (m_phrase s) (m_entropy s) v (m_binary s).
Definition m_set_binary (v : option Z) (s : mnemonic_vars) : mnemonic_vars := MV (m_checksumBinary s) (m_b s) (m_i s) (m_j s) (m_str s) (m_phrase s) (m_entropy s) (m_err s) v.

Definition mnemonic_start : mnemonic_vars := MV [] [] 0 0 [] [] 0 false None.

(** mnemonic.go:134-143, the body of the loop over groups of eleven bits. *)
Definition bits_body (l : list gostring) : cmd mnemonic_vars (result gostring) :=
  Set_ (m_set_str []) ;;                                                          (* 134 *)
  Set_ (fun s => m_set_j (m_i s) s) ;;                                            (* 135 *)
  For (fun s => m_j s - m_i s <? 11) (fun s => m_set_j (m_j s + 1) s)             (* 135 *)
    (Do (fun s => match m_binary s with                                           (* 136-140 *)
                  | None => Panic PNil
                  | Some b => Ret (m_set_str (m_str s ++ [if big_bit b (m_j s) =? 0 then char0 else char1]) s)
                  end)) ;;
  Do (fun s => match set_string2 (m_str s) with                                   (* 142-143 *)
               | None => Panic PNil
               | Some n => let* w := index l n in Ret (m_set_phrase (m_phrase s ++ [w]) s)
               end).

(** mnemonic.go:77-147. rand.Int is a call of the standard library ([GoRand.v]);
    [rd] is what the random source delivers. *)
Definition NewMnemonic_body (words : Z) (wl : wordlist) (rd : list byte) : cmd mnemonic_vars (result gostring) :=
  match wl with
  | None => Return (fun _ => Err EInvalidWordlist)                                (* 79-81 *)
  | Some l =>
      match entropy_length words with                                             (* 83-102 *)
      | None => Return (fun _ => Err EUnsupportedLength)
      | Some entropyLength =>
          Set_ (fun s => match rand_int (2 ^ entropyLength) rd with               (* 105-107 *)
                         | Some (e, _) => m_set_entropy e s
                         | None => m_set_err true s end) ;;
          If m_err (Return (fun _ => Err ERandRead)) Skip ;;                      (* 108-110 *)
          Do (fun s => let* c := slice (sprintf_b (set_bytes (sha256 (big_bytes (m_entropy s)))))   (* 112-121 *)
                                       0 (entropyLength / 32) in
                       Ret (m_set_checksumBinary c s)) ;;
          Set_ (fun s => m_set_b (sprintf_b (m_entropy s)) s) ;;                  (* 123 *)
          For (fun s => len (m_b s) <? entropyLength) (fun s => s)                (* 125-127 *)
            (Set_ (fun s => m_set_b (str "0" ++ m_b s) s)) ;;
          Set_ (fun s => m_set_b (m_b s ++ m_checksumBinary s) s) ;;              (* 129 *)
          Set_ (fun s => m_set_binary (set_string2 (m_b s)) s) ;;                 (* 130 *)
          Set_ (m_set_phrase []) ;;                                               (* 132 *)
          Set_ (m_set_i 0) ;;                                                     (* 133 *)
          For (fun s => m_i s <? len (m_b s)) (fun s => m_set_i (m_i s + 11) s)   (* 133 *)
            (bits_body l) ;;
          Return (fun s => Ok (join_space (m_phrase s)))                          (* 146 *)
      end
  end.
