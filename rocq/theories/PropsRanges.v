(** Positions: character ranges (C16), call operators (C23) and box positions (C51).
    Specification: SpecTokenizer.v and SpecBox.v. *)
From Coq Require Import String ZArith List Bool Lia.
From Verif Require Import Base Source WLChar GenTokenKind GenOps GenSymbols GenPrec TokenKind Parselets GenParselets ByteDecoder CharDecoder Tokenizer Utils
  SpecText SpecReader SpecTokenizer PropsReader PropsTokenizer Ranges BoxPosition SpecBox BoxProofs.
Import ListNotations.
Local Open Scope Z_scope.

(** C16.  With character positions, the range of a token of an ASCII input is, counted from
    zero, the range of bytes its text comes from; this includes CR LF. *)
Theorem C16_character_range : forall o input qs ts s', 0 < o_tab_width o -> o_conv o = ConvCharacterIndex -> Forall (fun b => 0 <= b < 128) input -> Forall plain_request qs ->
  ask_all o qs (reader_new o input) = Ok (ts, s') ->
  Forall (fun t => exists a b u v, t_src t = mkspan (CharIdx a) (CharIdx b) /\ input = u ++ t_text t ++ v /\ to_rust_range (a, b) = Ok (zlen u, zlen (u ++ t_text t))) ts.
Proof. exact requests_ranges. Qed.
Print Assumptions C16_character_range.
Theorem C16_character_range_tokenize : forall o b input ts s', 0 < o_tab_width o -> o_conv o = ConvCharacterIndex -> Forall (fun b => 0 <= b < 128) input -> tokenize_raw o b input = Ok (ts, s') ->
  Forall (fun t => exists a b u v, t_src t = mkspan (CharIdx a) (CharIdx b) /\ input = u ++ t_text t ++ v /\ to_rust_range (a, b) = Ok (zlen u, zlen (u ++ t_text t))) ts.
Proof. exact tokenize_ranges. Qed.
Print Assumptions C16_character_range_tokenize.
Definition indexed : opts := mkopts ConvCharacterIndex 4 true true (o_normal default_opts) (o_alnum default_opts).
Example C16_ranges_case : match tokenize_raw indexed NotScript (text "ab" ++ [13; 10] ++ text "+") with
  | Ok (ts, _) => map (fun t => match t_src t with mkspan (CharIdx a) (CharIdx b) => to_rust_range (a, b) | _ => Panic end) ts = [Ok (0, 2); Ok (2, 4); Ok (4, 5)]
  | _ => False end.
Proof. vm_compute. reflexivity. Qed.

(** C23.  A group that follows a head becomes a call with brackets of the same name, and the
    call operator an opener leads to has the name of the group the opener starts. *)
Theorem C23_call_operators :
  (forall g c, try_to_call_operator g = Ok c -> exists n, assoc g GOP_TO = Some n /\ assoc c CALLOP_TO = Some n) /\
  (forall k g, In (k, IP_Call k g) INFIX_PARSELETS -> exists c, try_to_call_operator g = Ok c) /\
  (forall k g g', In (k, IP_Call k g) INFIX_PARSELETS -> In (k, PP_Group k g') PREFIX_PARSELETS -> g = g').
Proof.
  assert (B : forallb (fun p => match snd p with IP_Call t g => match try_to_call_operator g with Ok _ => forallb (fun q => match snd q with PP_Group t' g' => negb (t' =? t) || (g' =? g) | _ => true end) PREFIX_PARSELETS | _ => false end | _ => true end) INFIX_PARSELETS = true)
    by (vm_compute; reflexivity).
  rewrite forallb_forall in B. split; [|split].
  - intros g c H. unfold try_to_call_operator, switch in H. cbn [assoc] in H.
    repeat match type of H with context [if ?x =? ?y then _ else _] => destruct (Z.eqb_spec x y) as [<-|]; [injection H as <-; eexists; split; vm_compute; reflexivity|] | context [if ?x =? ?y then _ else _] => destruct (Z.eqb_spec x y) as [->|]; [injection H as <-; eexists; split; vm_compute; reflexivity|] end. discriminate.
  - intros k g H. specialize (B _ H). cbn [snd] in B. destruct (try_to_call_operator g); try discriminate. eauto.
  - intros k g g' H H'. specialize (B _ H). cbn [snd] in B. destruct (try_to_call_operator g); try discriminate. rewrite forallb_forall in B. specialize (B _ H'). cbn [snd] in B. rewrite Z.eqb_refl in B. cbn in B. lia.
Qed.
Print Assumptions C23_call_operators.
Example C23_call_case : try_to_call_operator GOP_CodeParser_GroupTypeSpecifier = Ok CALLOP_CodeParser_GroupTypeSpecifier /\ In (TK_ColonColonOpenSquare, IP_Call TK_ColonColonOpenSquare GOP_CodeParser_GroupTypeSpecifier) INFIX_PARSELETS.
Proof.
  split; [reflexivity|]. assert (X : existsb (fun p => (fst p =? TK_ColonColonOpenSquare) && match snd p with IP_Call t g => (t =? TK_ColonColonOpenSquare) && (g =? GOP_CodeParser_GroupTypeSpecifier) | _ => false end) INFIX_PARSELETS = true) by (vm_compute; reflexivity).
  apply existsb_exists in X as ((k & p) & H & X). cbn [fst snd] in X. apply andb_prop in X as [X1 X2]. destruct p; try discriminate. apply andb_prop in X2 as [X2 X3]. apply Z.eqb_eq in X1, X2, X3. subst. exact H.
Qed.

(** C51.  The box position computed from a start and an end that are in reading order covers
    everything the two cover. *)
Theorem C51_between_covers : forall s e r, in_order (start_path s) (start_path e) -> between s e = Ok (Some r) -> forall path, covers s path \/ covers e path -> covers r path.
Proof. exact between_covers. Qed.
Print Assumptions C51_between_covers.
(** From the first box of a row it is the whole row box, from the second box it is the run. *)
Theorem C51_from_first : forall p r j, j <> 1 -> between (BAt (p ++ [r; 1])) (BAt (p ++ [r; j])) = Ok (Some (BAt p)).
Proof. exact between_first. Qed.
Print Assumptions C51_from_first.
Theorem C51_from_second : forall p j, 2 < j -> between (BAt (p ++ [2])) (BAt (p ++ [j])) = Ok (Some (BSpanning p (2, j))).
Proof. exact between_second. Qed.
Print Assumptions C51_from_second.
(** It is not defined for every run of boxes of a row: from the third box on it panics. *)
Theorem C51_total_refuted : exists s e, in_order (start_path s) (start_path e) /\ between s e = Panic.
Proof. exists (BAt [1; 3]), (BAt [1; 5]). split; [apply (io_before [1] 3 5 [] []); lia|reflexivity]. Qed.
Print Assumptions C51_total_refuted.
Example C51_case : between (BAt [1; 1; 1]) (BSpanning [1; 1] (2, 4)) = Ok (Some (BAt [1])) /\ between (BAt [1; 1]) (BAt [1; 2; 1; 2]) = Ok (Some (BAt [])) /\
  between (BBefore [1; 1]) (BAt [1; 2]) = Ok (Some (BAt [])) /\ in_order (start_path (BAt [1; 1])) (start_path (BAt [1; 2; 1; 2])).
Proof. repeat split. apply (io_before [1] 1 2 [] [1; 2]). lia. Qed.
