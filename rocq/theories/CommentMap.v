(** * Which node a comment belongs to: go/ast, NewCommentMap (Go 1.17), which createCommentMap calls (analyse.go 245-257). *)
From stdpp Require Import base list gmap.
From Verif Require Import GoString Scc GoAst CommentText.
Local Open Scope N_scope.

(** token.Position: what NewCommentMap looks at ("//line" directives, which change the lines, are not modelled: the line is the one of the file). *)
Record place := Place { p_off : N; p_line : N }.
(** A node of the file: its extent, and whether it is a node group (an ast.File, Field, Decl, Spec or Stmt). *)
Record snode := SNode { sn_id : nid; sn_start : place; sn_end : place; sn_group : bool }.
(** An ast.CommentGroup: its extent, and the comments with their markers. *)
Record cgroup := CGroup { cg_start : place; cg_end : place; cg_comments : list gostring }.
(** An ast.File: its nodes in the order of ast.Inspect (go/ast, nodeList: without the comments), and its comments, which the parser lists
    in the order of the source (so that sortComments changes nothing). *)
Record source_file := SourceFile { sf_nodes : list snode; sf_comments : list cgroup }.

(** go/ast, nodeStack.pop: the stack (top first) without the nodes that end at or before the position, and the last one removed. *)
Fixpoint pop_ended (pos : N) (top : option snode) (stack : list snode) : option snode * list snode :=
  match stack with
  | n :: stack' => if p_off (sn_end n) <=? pos then pop_ended pos (Some n) stack' else (top, stack)
  | [] => (top, [])
  end.
(** go/ast, nodeStack.push. *)
Definition push_group (n : snode) (stack : list snode) : list snode := n :: (pop_ended (p_off (sn_start n)) None stack).2.

(** go/ast, NewCommentMap: the conditions of the switch; [q] is the current node, None the sentinel behind all nodes. *)
Definition is_before (c : cgroup) (q : option snode) : bool :=
  match q with Some n => p_off (cg_end c) <=? p_off (sn_start n) | None => true end.
Definition gap_after (c : cgroup) (q : option snode) : bool :=
  match q with Some n => p_line (cg_end c) + 1 <? p_line (sn_start n) | None => true end.
Definition follows (n : snode) (c : cgroup) (q : option snode) : bool :=
  (p_line (sn_end n) =? p_line (cg_start c)) || ((p_line (sn_end n) + 1 =? p_line (cg_start c)) && gap_after c q).
(** The node the comment is associated with; None: the panic "no comments should be associated with sentinel". *)
Definition owner_of (p pg q : option snode) (c : cgroup) : option snode :=
  match pg with
  | Some g => if follows g c q then Some g else
              match p with Some n => if follows n c q || match q with None => true | _ => false end then Some n else q | None => q end
  | None => match p with Some n => if follows n c q || match q with None => true | _ => false end then Some n else q | None => q end
  end.

(** The inner loop: the comments before [q]; the state is the previous node, the previous node group, the stack of open
    groups and the comments not yet read; the result is the list of owners, in order. *)
Record cm_state := CMState { m_group : option snode; m_stack : list snode; m_rest : list cgroup; m_map : list (nid * cgroup) }.
Fixpoint place_before (p q : option snode) (pg : option snode) (stack : list snode) (cs : list cgroup) (m : list (nid * cgroup)) : option cm_state :=
  match cs with
  | [] => Some (CMState pg stack [] m)
  | c :: cs' =>
    if is_before c q then
      let '(top, stack') := pop_ended (p_off (cg_start c)) None stack in
      let pg' := match top with Some g => Some g | None => pg end in
      match owner_of p pg' q c with
      | Some n => place_before p q pg' stack' cs' (m ++ [(sn_id n, c)])
      | None => None
      end
    else Some (CMState pg stack cs m)
  end.
(** The outer loop over the nodes, and the sentinel. *)
Fixpoint place_comments (p : option snode) (nodes : list snode) (s : cm_state) : option cm_state :=
  match nodes with
  | [] => place_before p None (m_group s) (m_stack s) (m_rest s) (m_map s)
  | q :: nodes' =>
    match place_before p (Some q) (m_group s) (m_stack s) (m_rest s) (m_map s) with
    | Some s' => place_comments (Some q) nodes'
        (CMState (m_group s') (if sn_group q then push_group q (m_stack s') else m_stack s') (m_rest s') (m_map s'))
    | None => None
    end
  end.
(** The owners of all comments of a file. *)
Definition newCommentMap (f : source_file) : option (list (nid * cgroup)) :=
  match sf_comments f with
  | [] => Some []
  | cs => m_map <$> place_comments None (sf_nodes f) (CMState None [] cs [])
  end.
(** analyse.go 245-257, createCommentMap, followed by annotation.go 38-48: the texts of the comments of a node.  Nodes of different files
    are different; the entry of a later file would replace the one of an earlier file. *)
Definition texts_of (m : list (nid * cgroup)) (id : nid) : list gostring :=
  map (fun p => comment_text (cg_comments p.2)) (filter (fun p => p.1 = id) m).
Fixpoint createCommentMap (files : list source_file) (id : nid) : option (list gostring) :=
  match files with
  | [] => Some []
  | f :: files' =>
    match newCommentMap f, createCommentMap files' id with
    | Some m, Some rest => Some (match rest with [] => texts_of m id | _ => rest end)
    | _, _ => None
    end
  end.
