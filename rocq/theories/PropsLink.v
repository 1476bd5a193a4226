(** C57: what is sent to the kernel. *)
From Coq Require Import String.
From Coq Require Import ZArith List Bool Lia.
From Verif Require Import Base Source LongNames GenTokenKind GenOps TokenKind Tokenizer SpecText SpecReader Utils Cst Parser SpecParse PropsReader Ast Abstract PropsAbstract
  BoxPosition Link SpecLink LinkProofs LinkTotal.
Import ListNotations.
Local Open Scope string_scope.
Local Open Scope list_scope.
Local Open Scope Z_scope.

(** [sent w form] is what every run of [w] gives: exactly one expression, and it has the form [form ab],
    where [ab] says whether the kernel asked to abort during the run. *)
Definition sent (w : W) (form : bool -> expr -> Prop) : Prop :=
  forall q ps q', w q = Ok (ps, q') -> exists e, denotes ps e /\ (forall e', denotes ps e' -> e' = e) /\ form (existsb (fun b => b) q) e.
Lemma sends_sent : forall w form, (forall ab, sends ab w (form ab)) -> sent w form.
Proof.
  intros w form H q ps q' E. destruct (H (existsb (fun b => b) q) q ps q') as (_ & e & D & F); [|exact E|].
  - intros T. apply existsb_exists. exists true. auto.
  - exists e. split; [exact D|]. split; [|exact F]. intros e' D'. exact (denotes_unique _ _ _ D D').
Qed.

(** Whatever is put is one expression, of the documented form. *)
Theorem C57_sequence : forall c l, sent (put_nodes c l) (fun ab => seq_form (compat c) ab l).
Proof. intros c l. apply sends_sent. intros ab. apply one_nodes. Qed.
Print Assumptions C57_sequence.
Theorem C57_node : forall c n, sent (put_node c n) (fun ab => node_form (compat c) ab n).
Proof. intros c n. apply sends_sent. intros ab. apply one_node. Qed.
Print Assumptions C57_node.
Theorem C57_container : forall c x, sent (put_container c x) (fun ab => container_form (compat c) ab x).
Proof. intros c x. apply sends_sent. intros ab. apply one_container. Qed.
Print Assumptions C57_container.
Theorem C57_result : forall c r, sent (put_result c r) (fun ab => result_form (compat c) ab r).
Proof. intros c r. apply sends_sent. intros ab. apply one_result. Qed.
Print Assumptions C57_result.
Theorem C57_ast : forall c fl a, sent (put_ast c fl a) (fun _ => ast_form (compat c) fl a).
Proof. intros c fl a. apply sends_sent. intros ab. apply one_ast. Qed.
Print Assumptions C57_ast.

(** The trees of every text can be put, whatever the answers to the questions for an abort:
    as they are, and without their white space. *)
Theorem C57_parsed_trees_can_be_put : forall o dbg b input l s' c fl q, 0 < o_tab_width o -> well_formed_no_bom input -> parse_cst_raw o dbg keep b input = Ok (l, s') ->
  exists ps q', put_nodes c (map (of_cst fl) l) q = Ok (ps, q').
Proof. intros o dbg b input l s' c fl q Ht W E. exact (parse_total o dbg b input l s' c fl Ht W E q). Qed.
Print Assumptions C57_parsed_trees_can_be_put.
Theorem C57_aggregates_can_be_put : forall o dbg b input l s' l' c fl q, 0 < o_tab_width o -> well_formed_no_bom input -> parse_cst_raw o dbg keep b input = Ok (l, s') ->
  aggregate_cst_seq l = Ok l' -> exists ps q', put_nodes c (map (of_cst fl) l') q = Ok (ps, q').
Proof. intros o dbg b input l s' l' c fl q Ht W E Ea. exact (aggregate_total o dbg b input l s' l' c fl Ht W E Ea q). Qed.
Print Assumptions C57_aggregates_can_be_put.

(** Aborts: when every answer is yes, nothing of the elements is put. *)
Theorem C57_aborts : forall c l q, exists ps, put_nodes c l (repeat true (length l) ++ q) = Ok (ps, q) /\
  denotes ps (fn "System`List" (map (fun _ => ESym "System`$Aborted") l)).
Proof.
  intros c l q. unfold put_nodes, put_seq. rewrite map_length.
  assert (X : wall (map put_element (map (put_node c) l)) (repeat true (length l) ++ q) = Ok (map (fun _ => PSym "System`$Aborted") l, q)).
  { induction l as [|n l IH]; [reflexivity|]. cbn [map length repeat app wall]. unfold wseq. cbn [put_element]. cbn [rbind]. rewrite IH. reflexivity. }
  eexists. split; [unfold wseq, wdo; cbn [rbind]; rewrite X; reflexivity|]. cbn [app]. apply d_fun; [|apply map_length].
  clear X. induction l as [|n l IH]; cbn [map]; [constructor|]. apply (d_cons [_] _ _ _); [constructor|exact IH].
Qed.
Print Assumptions C57_aborts.

(** *** Cases *)
Definition plain : filling := mk_filling (fun _ => []) EStr (fun _ => BNamed "RowBox").
Definition release_cfg : cfg := mk_cfg true false false.
Definition put_text_of (s : string) : res (list packet * list bool) :=
  match parse_cst_raw default_opts false keep NotScript (bytes_of_string s) with
  | Ok (l, _) => put_nodes release_cfg (map (of_cst plain) l) []
  | _ => Panic
  end.
Definition where_ (a b c d : Z) : list packet :=
  [PFun "System`Association" 1; PFun "System`Rule" 2; PSym "CodeParser`Source"; PFun "System`List" 2; PFun "System`List" 2; PInt a; PInt b; PFun "System`List" 2; PInt c; PInt d].
Definition leaf_ (k s : string) (w : list packet) : list packet := [PFun "CodeParser`LeafNode" 3; PSym k; PStr (bytes_of_string s)] ++ w.
Example C57_case : put_text_of "f[1]+x" =
  Ok ([PFun "System`List" 1; PFun "CodeParser`InfixNode" 3; PSym "System`Plus"; PFun "System`List" 3]
      ++ [PFun "CodeParser`CallNode" 3; PFun "System`List" 1] ++ leaf_ "System`Symbol" "f" (where_ 1 1 1 2)
      ++ [PFun "CodeParser`GroupNode" 3; PSym "CodeParser`GroupSquare"; PFun "System`List" 3]
      ++ leaf_ "Token`OpenSquare" "[" (where_ 1 2 1 3) ++ leaf_ "System`Integer" "1" (where_ 1 3 1 4) ++ leaf_ "Token`CloseSquare" "]" (where_ 1 4 1 5) ++ where_ 1 2 1 5
      ++ where_ 1 1 1 5
      ++ leaf_ "Token`Plus" "+" (where_ 1 5 1 6) ++ leaf_ "System`Symbol" "x" (where_ 1 6 1 7)
      ++ where_ 1 1 1 7, []).
Proof. vm_compute. reflexivity. Qed.
Definition some_issue : wissue := mk_wissue "CodeParser`EncodingIssue" UnexpectedCarriageReturn (bytes_of_string "m") Fatal (SSpan (mkspan (CharIdx 3) (CharIdx 5))) 95
  [mk_action (bytes_of_string "fix") (InsertText (bytes_of_string ";")) (mkspan (CharIdx 3) (CharIdx 3))] [bytes_of_string "d"] [SSpan (mkspan (CharIdx 1) (CharIdx 2))].
Definition some_meta : wmeta := mk_wmeta SUnknown (Some [some_issue]) (Some (NumR 95)) None (Some [bytes_of_string "x"]) (Some (EStr (bytes_of_string "a.wl"))) None (Some (fn "System`List" [])) None None.
Example C57_container_case : exists ps, put_container release_cfg (mk_container CFile (Nodes [NTok TK_Symbol (bytes_of_string "x") (SBox (BAt [1; 2])); NCode (EInt 1) (EInt 2) (SBox (BSpanning [1] (2, 3)))]) some_meta) [true] = Ok (ps, []) /\
  hd (PInt 0) ps = PFun "CodeParser`ContainerNode" 3 /\ nth 3 ps (PInt 0) = PSym "System`$Aborted".
Proof. eexists. split; [vm_compute; reflexivity|]. split; reflexivity. Qed.
Example C57_ast_case : match ast_of release "f[1]+x" with Ok [a] => exists ps, put_ast release_cfg plain a [] = Ok (ps, []) /\ hd (PInt 0) ps = PFun "CodeParser`CallNode" 3 | _ => False end.
Proof. vm_compute. eexists. split; reflexivity. Qed.
