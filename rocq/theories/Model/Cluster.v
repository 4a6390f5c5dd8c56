(** Model of the choice of a target server: src/ZeroconfCluster.cxx,
    Listener::GetProxyTo() in src/Listener.cxx and its caller in
    src/Connection.cxx.

    Parameters and simplifications: [rank]: class RendezvousHashing::Node of
    libcommon (not part of this repository) computes a score of a member from
    its address, its TXT record and the sticky source, and
    Node::Compare(arch, a, b) compares architectures and scores; both together
    are a number for each member, and Compare() tells whether the number of [a]
    is less than that of [b].  std::sort() may return the members in any order
    which is sorted, so the order is an argument (see [std_sort]).  A node of
    the std::map has a number which is never used again, in order to tell
    iterators of removed nodes from others. *)

From Coq Require Import NArith List Bool.
From Verif.Base Require Import Bytes.
Import ListNotations.
Open Scope N_scope.

(** RendezvousHashing::Node: address, TXT record, flags.is_our_own *)
Record member := { mb_address : bytes; mb_txt : bytes; mb_our_own : bool }.

(** src/ZeroconfCluster.hxx:31-48; a node of member_map: number, key, member;
    member_list: numbers of nodes *)
Record cluster := {
  cc_map : list (N * bytes * member);
  cc_list : list N;
  cc_dirty : bool;
  cc_next : N
}.
Definition new_cluster : cluster := {| cc_map := []; cc_list := []; cc_dirty := false; cc_next := 0 |}.

Definition find_key (key : bytes) (m : list (N * bytes * member)) : option (N * bytes * member) :=
  find (fun n => bytes_eqb (snd (fst n)) key) m.
(** dereferencing an iterator; [None]: the node does not exist any more *)
Definition deref (m : list (N * bytes * member)) (id : N) : option member :=
  option_map snd (find (fun n => fst (fst n) =? id) m).

(** ZeroconfCluster::OnAvahiNewObject(), src/ZeroconfCluster.cxx:60-71.
    (The order of the std::map is not modelled; [cc_list] is sorted before it
    is used.) *)
Definition OnAvahiNewObject (key : bytes) (v : member) (c : cluster) : cluster :=
  match find_key key (cc_map c) with
  | Some _ =>
      {| cc_map := map (fun n => if bytes_eqb (snd (fst n)) key then (fst n, v) else n) (cc_map c);
         cc_list := cc_list c; cc_dirty := true; cc_next := cc_next c |}
  | None =>
      {| cc_map := cc_map c ++ [(cc_next c, key, v)]; cc_list := cc_list c; cc_dirty := true; cc_next := cc_next c + 1 |}
  end.

(** ZeroconfCluster::OnAvahiRemoveObject(), src/ZeroconfCluster.cxx:73-85 *)
Definition OnAvahiRemoveObject (key : bytes) (c : cluster) : cluster :=
  match find_key key (cc_map c) with
  | None => c
  | Some _ =>
      {| cc_map := filter (fun n => negb (bytes_eqb (snd (fst n)) key)) (cc_map c);
         cc_list := cc_list c; cc_dirty := true; cc_next := cc_next c |}
  end.

(** std::sort() with a comparison by numbers: [order] if this is a possible
    result, and else the result of some algorithm. *)
Fixpoint remove_one (x : N) (l : list N) : option (list N) :=
  match l with
  | [] => None
  | y :: t => if x =? y then Some t else option_map (cons y) (remove_one x t)
  end.
Fixpoint is_permutation (a b : list N) : bool :=
  match a with
  | [] => match b with [] => true | _ => false end
  | x :: t => match remove_one x b with Some b' => is_permutation t b' | None => false end
  end.
Fixpoint is_sorted (f : N -> N) (l : list N) : bool :=
  match l with
  | x :: ((y :: _) as t) => (f x <=? f y) && is_sorted f t
  | _ => true
  end.
Fixpoint insert (f : N -> N) (x : N) (l : list N) : list N :=
  match l with
  | [] => [x]
  | y :: t => if f x <=? f y then x :: l else y :: insert f x t
  end.
Definition std_sort (f : N -> N) (order l : list N) : list N :=
  if is_permutation order l && is_sorted f order then order
  else fold_right (insert f) [] l.

(** The result of ZeroconfCluster::Pick() *)
Inductive picked :=
| NoMember                      (* {nullptr, {}} *)
| Picked (node : N) (v : member)
| BadIterator.                  (* an iterator of a removed node was used *)

Section Pick.
Variable rank : N -> bytes -> member -> N.

Definition score (arch : N) (sticky_source : bytes) (m : list (N * bytes * member)) (id : N) : N :=
  match deref m id with Some v => rank arch sticky_source v | None => 0 end.

(** src/ZeroconfCluster.cxx:23-31 FillMemberList(), 34-58 Pick() *)
Definition Pick (arch : N) (sticky_source : bytes) (order : list N) (c : cluster) : picked * cluster :=
  let l := if cc_dirty c then map (fun n => fst (fst n)) (cc_map c) else cc_list c in
  match l with
  | [] => (NoMember, {| cc_map := cc_map c; cc_list := l; cc_dirty := false; cc_next := cc_next c |})
  | _ =>
      if forallb (fun id => match deref (cc_map c) id with Some _ => true | None => false end) l then
        let l := std_sort (score arch sticky_source (cc_map c)) order l in
        let c := {| cc_map := cc_map c; cc_list := l; cc_dirty := false; cc_next := cc_next c |} in
        match l with
        | id :: _ => match deref (cc_map c) id with Some v => (Picked id v, c) | None => (BadIterator, c) end
        | [] => (BadIterator, c)
        end
      else (BadIterator, c)
  end.

(** What happens to a cluster *)
Inductive cop :=
| CNew (key : bytes) (v : member)
| CRemove (key : bytes)
| CPick (arch : N) (sticky_source : bytes) (order : list N).

Definition cstep (c : cluster) (o : cop) : cluster :=
  match o with
  | CNew key v => OnAvahiNewObject key v c
  | CRemove key => OnAvahiRemoveObject key c
  | CPick arch sticky_source order => snd (Pick arch sticky_source order c)
  end.
Definition crun (ops : list cop) : cluster := fold_left cstep ops new_cluster.

(** Listener::ProxyTo, src/Listener.hxx:45-49 *)
Inductive proxy_to := ToNobody | ToHost (address : bytes) | ToCluster (c : cluster).

(** Listener::GetProxyTo(), src/Listener.cxx:175-206; an address of a cluster is
    a reference to the address of the member *)
Inductive reference := RHost (address : bytes) | RMember (node : N) (address : bytes).
Inductive proxied := Here | To (r : reference) | EmptyCluster | Undefined.
Definition GetProxyTo (proxy_skip_our_own : bool) (arch : N) (sticky_source : bytes) (order : list N) (p : proxy_to) : proxied :=
  match p with
  | ToHost address => To (RHost address)
  | ToCluster c =>
      match fst (Pick arch sticky_source order c) with
      | NoMember => EmptyCluster
      | BadIterator => Undefined
      | Picked node v => if proxy_skip_our_own && mb_our_own v then Here else To (RMember node (mb_address v))
      end
  | ToNobody => Here
  end.

(** Reading the address again, as src/Connection.cxx:1155 does after it has
    waited for the connection (1151-1153); [None]: the memory was freed *)
Definition read_address (r : reference) (c : cluster) : option bytes :=
  match r with
  | RHost address => Some address
  | RMember node _ => option_map mb_address (deref (cc_map c) node)
  end.
End Pick.
