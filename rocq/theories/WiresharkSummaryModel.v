(** The one-line summaries of the Wireshark dissector, tools/dissect-wireshark/ndn.lua.

    The model works on the items of the tree of one packet, which [addTree] (WiresharkModel.v) has
    made in L448-462: one item for each block, so that the index of an item stands for the block;
    [block.elements] are the items that hang on it, in their order.  [block.summary] is a map from
    indices to texts.  A block without elements and a block with an empty list of elements get no
    summary, one at the first visit, the other at the second: they are not told apart.  The
    "Info" column, which the same loop fills (L480-491), is modelled by [summarize]. *)
From Coq Require Import String.
From Verif Require Import Base TlvModel PingModel DumpModel WiresharkModel.
Open Scope nat_scope.
Open Scope list_scope.

(** [summary = true] in ndn.lua L197-243 *)
Definition has_summary (t : lnum) : bool :=
  match t with
  | LNum z => existsb (Z.eqb z) [5; 30; 6; 20; 22; 28; 100; 800; 820]%Z
  | LU64 _ => false
  end.

Section Items.
Variable items : list item.

Definition parent_is (k j : nat) : bool :=
  match nth_error items j with
  | Some it => match it_parent it with Some p => Nat.eqb p k | None => false end
  | None => false
  end.
(** block.elements, ndn.lua L454-461 *)
Definition kids (k : nat) : list nat := filter (parent_is k) (seq 0 (length items)).

(** info.name .. ": " .. subblock.value: texts, numbers and UInt64 objects as text *)
Definition show (v : value) : text :=
  match v with VText t => t | VNumber z => decimal z | VU64 z => decimal z end.

(** subblock.value: set by [addInfo] (L287), or by [addSummary] (L320-322) *)
Definition value_of (sm : list (nat * text)) (j : nat) : option text :=
  match nth_error items j with
  | Some it =>
      match it_value it with
      | Some v => Some (show v)
      | None => match find (fun p => Nat.eqb (fst p) j) sm with Some p => Some (snd p) | None => None end
      end
  | None => None
  end.

(** ndn.lua L311-318, one round *)
Definition mention (sm : list (nat * text)) (j : nat) : list text :=
  match value_of sm j, nth_error items j with
  | Some v, Some it =>
      match ndn_dict (it_type it) with
      | Some info => [str (e_name info) ++ str ": " ++ v]
      | None => []
      end
  | _, _ => []
  end.

(** table.concat(summary, ", ") *)
Fixpoint concat_comma (l : list text) : text :=
  match l with
  | [] => []
  | [a] => a
  | a :: l' => a ++ str ", " ++ concat_comma l'
  end.

(** ndn.lua L299-327 *)
Definition addSummary (sm : list (nat * text)) (k : nat) : list (nat * text) :=
  match nth_error items k with
  | Some it =>
      if has_summary (it_type it) then
        let summary := flat_map (mention sm) (kids k) in
        match summary with
        | [] => sm
        | _ :: _ => (k, concat_comma summary) :: sm
        end
      else sm
  | None => sm
  end.

(** ndn.lua L464-478; the flag is [block.visited] *)
Fixpoint sumLoop (fuel : nat) (stack : list (nat * bool)) (sm : list (nat * text)) : res (list (nat * text)) :=
  match stack with
  | [] => Ok sm
  | (k, visited) :: stack' =>
      match fuel with
      | O => NoFuel
      | S fuel' =>
          match kids k with
          | [] => sumLoop fuel' stack' (addSummary sm k)
          | cs => if visited then sumLoop fuel' stack' (addSummary sm k)
                  else sumLoop fuel' (rev (map (fun c => (c, false)) cs) ++ (k, true) :: stack') sm
          end
      end
  end.

(** ndn.lua L464-478 for the block of the packet, whose item is the first *)
Definition summaries : res (list (nat * text)) := sumLoop (2 * length items) [(0, false)] [].

(** what is appended to the text of an item, ndn.lua L323 *)
Definition appended (sm : list (nat * text)) (k : nat) : text :=
  match find (fun p => Nat.eqb (fst p) k) sm with Some p => str ", " ++ snd p | None => [] end.

(** what is appended to the text of the item of the whole packet, ndn.lua L494-501 *)
Definition tree_text (sm : list (nat * text)) : text :=
  match nth_error items 0 with
  | Some it =>
      match ndn_dict (it_type it) with
      | Some info => str ", " ++ str (e_name info) ++ appended sm 0
      | None => []
      end
  | None => []
  end.
End Items.
