(** Property C41: printing characters.  Statements only; proofs in FormatRound.v. *)
From Coq Require Import String ZArith List Bool Lia.
From Verif Require Import Base Source WLChar LongNames ByteDecoder CharDecoder Format SpecText SpecReader Iter
  ReaderProofs PropsReader FormatRound.
Import ListNotations.
Local Open Scope Z_scope.

(** What was read from an escape prints as text (a list of code points) that reads back as
    the same character, wherever it stands.  A line feed after it is excluded because it
    would join the carriage return of an escaped line ending. *)
Theorem C41_printed_escape_reads_back : forall o pol input s c s', 0 < o_tab_width o -> reachable o input s -> p_scan pol = false ->
  next_wolfram_char o pol s = Ok (c, s') -> wesc c <> ENone -> wesc c <> ERaw ->
  exists txt, display_plain c = Ok txt /\
    forall o2 pol2 input2 s2 r, 0 < o_tab_width o2 -> reachable o2 input2 s2 -> p_scan pol2 = false ->
      rest (cur s2) = encode txt ++ r -> hd 0 r <> 10 ->
      exists s3, next_wolfram_char o2 pol2 s2 = Ok (c, s3) /\ rest (cur s3) = r.
Proof.
  exact (fun o pol input s c s' Ht Hr Hp E N1 N2 =>
    match printed_reads_back o pol s c s' (reachable_Inv o input s Ht Hr) Hp E N1 N2 with
    | ex_intro _ txt (conj A B) => ex_intro _ txt (conj A (fun o2 pol2 input2 s2 r Ht2 Hr2 => B o2 pol2 s2 r (reachable_Inv o2 input2 s2 Ht2 Hr2))) end).
Qed.
Print Assumptions C41_printed_escape_reads_back.

(** Every character that is a code point can be printed in all three ways. *)
Theorem C41_printing_total : forall o pol input s c s', 0 < o_tab_width o -> reachable o input s -> p_scan pol = false ->
  next_wolfram_char o pol s = Ok (c, s') -> 0 <= wc c ->
  (exists t, display_plain c = Ok t) /\ (exists t, graphicalString c = Ok t) /\ (exists t, safeAndGraphicalString c = Ok t).
Proof. exact (fun o pol input s c s' Ht Hr => read_prints o pol s c s' (reachable_Inv o input s Ht Hr)). Qed.
Print Assumptions C41_printing_total.

Example C41_case : next_wolfram_char default_opts TOPLEVEL (reader_new default_opts (92 :: bytes_of_string ":00E9+")) =
    Ok (mkwl 0xE9 EHex4, mkst (mkpos [43] false (LineCol 1 7)) (lg (reader_new default_opts []))) /\
  display_plain (mkwl 0xE9 EHex4) = Ok (92 :: bytes_of_string ":00e9") /\
  display_plain (mkwl 0x3B1 ELongName) = Ok (92 :: bytes_of_string "[Alpha]").
Proof. split; [vm_compute; reflexivity|split; vm_compute; reflexivity]. Qed.
