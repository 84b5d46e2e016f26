(** The Wireshark dissector, tools/dissect-wireshark/ndn.lua.

    Environment (Wireshark's Lua interface): a Tvb range outside of the buffer, or with a
    UInt64 object as offset or length, raises an error; arithmetic between a number and a
    UInt64 gives a UInt64, modulo 2^64; comparison with [<], [<=] works between both, but
    a UInt64 never equals a number; [string.format("%d")] and [math.fmod] reject a UInt64;
    adding a text to an integer field raises an error; texts can be concatenated with numbers
    and UInt64 objects.  An error ends the dissector: what has
    been added to the tree stays.

    The one-line summaries appended to tree items (L299-327, L494-501) are in
    WiresharkSummaryModel.v.  Not modelled: the hidden fields bin/len/type (L514-516, only the
    access to [block.tree] is modelled), the registration of the ports (L531-546), colours. *)
From Coq Require Import String.
From Verif Require Import Base TlvModel PingModel DumpModel.
Open Scope Z_scope.

(** Lua numbers (integers here) and UInt64 objects *)
Inductive lnum := LNum (z : Z) | LU64 (z : Z).
Definition lval (n : lnum) : Z := match n with LNum z => z | LU64 z => z end.
Definition wrap64 (z : Z) : Z := z mod 18446744073709551616.
Definition ladd (a b : lnum) : lnum :=
  match a, b with LNum x, LNum y => LNum (x + y) | _, _ => LU64 (wrap64 (lval a + lval b)) end.
Definition lsub (a b : lnum) : lnum :=
  match a, b with LNum x, LNum y => LNum (x - y) | _, _ => LU64 (wrap64 (lval a - lval b)) end.
(** [n == z] with a number [z] *)
Definition lis (n : lnum) (z : Z) : bool := match n with LNum x => x =? z | LU64 _ => false end.

(** [NoFuel] stands for a computation that does not end; it is proved not to occur *)
Inductive res (A : Type) := Ok (a : A) | LuaError | NoFuel.
Arguments Ok {A}. Arguments LuaError {A}. Arguments NoFuel {A}.
Definition bind {A B} (r : res A) (f : A -> res B) : res B :=
  match r with Ok a => f a | LuaError => LuaError | NoFuel => NoFuel end.

Section Buffer.
Variable buf : list N.                    (* the Tvb *)
Definition len : Z := Z.of_nat (length buf).

(** tvb(offset, n) *)
Definition range (off n : lnum) : res (list N) :=
  match off, n with
  | LNum o, LNum k =>
      if (0 <=? o) && (0 <=? k) && (o + k <=? len) then Ok (firstn (Z.to_nat k) (skipn (Z.to_nat o) buf))
      else LuaError
  | _, _ => LuaError
  end.
(** range:uint(), range:uint64(): big endian *)
Definition uint (l : list N) : Z := Z.of_N (of_be l).

(** ndn.lua L332-349; 0, 0 if there is no number *)
Definition readVarNumber (off : lnum) : res (lnum * Z) :=
  if len <=? lval off then Ok (LNum 0, 0)
  else bind (range off (LNum 1)) (fun r =>
    let first := uint r in
    if first <? 253 then Ok (LNum first, 1)
    else if (first =? 253) && (lval off + 3 <? len) then
      bind (range (ladd off (LNum 1)) (LNum 2)) (fun v => Ok (LNum (uint v), 3))
    else if (first =? 254) && (lval off + 5 <? len) then
      bind (range (ladd off (LNum 1)) (LNum 4)) (fun v => Ok (LNum (uint v), 5))
    else if (first =? 255) && (lval off + 9 <? len) then
      bind (range (ladd off (LNum 1)) (LNum 8)) (fun v => Ok (LU64 (uint v), 9))
    else Ok (LNum 0, 0)).

(** ndn.lua L258-265 *)
Record block := Block {
  b_off : Z; b_type : lnum; b_typeLen : Z; b_length : lnum; b_lengthLen : Z
}.
Definition b_size (b : block) : lnum := ladd (LNum (b_typeLen b + b_lengthLen b)) (b_length b).

(** ndn.lua L351-369 *)
Definition getBlock (off : lnum) : res (option block) :=
  bind (readVarNumber off) (fun '(t, tl) =>
    if tl =? 0 then Ok None
    else bind (readVarNumber (ladd off (LNum tl))) (fun '(l, ll) =>
      if ll =? 0 then Ok None
      else Ok (Some (Block (lval off) t tl l ll)))).

(** ndn.lua L371-377 *)
Definition canBeValidNdnPacket (b : block) : bool :=
  (lis (b_type b) 5 || lis (b_type b) 6 || lis (b_type b) 100) && (lval (b_length b) <=? 8800).

(** ndn.lua L379-393; errors are caught by the pcall in L428 *)
Fixpoint findNdnPacket (n : nat) (off : Z) : option block :=
  match n with
  | O => None
  | S n' =>
      if off + 2 <? len then
        match getBlock (LNum off) with
        | Ok (Some b) => if canBeValidNdnPacket b then Some b else findNdnPacket n' (off + 1)
        | Ok None => findNdnPacket n' (off + 1)
        | _ => None
        end
      else None
  end.

(** ndn.lua L399-408 and L410-414 *)
Fixpoint subLoop (fuel : nat) (b : block) (valueLeft : lnum) (subs : list block) : res (option (list block)) :=
  if 0 <? lval valueLeft then
    match fuel with
    | O => NoFuel
    | S fuel' =>
        let off := ladd (LNum (b_off b + b_typeLen b + b_lengthLen b)) (lsub (b_length b) valueLeft) in
        bind (getBlock off) (fun oc =>
          match oc with
          | None => Ok None
          | Some c => subLoop fuel' b (lsub valueLeft (b_size c)) (subs ++ [c])
          end)
    end
  else if lis valueLeft 0 then Ok (Some subs) else Ok None.

(** ndn.lua L395-415 *)
Definition getSubBlocks (b : block) : res (option (list block)) :=
  subLoop (S (S (length buf))) b (b_length b) [].

(** * Values of fields *)

(** ndn.lua L41-43 *)
Definition getValue (b : block) : res (list N) :=
  range (LNum (b_off b + b_typeLen b + b_lengthLen b)) (b_length b).

Inductive value := VText (t : text) | VNumber (z : Z) | VU64 (z : Z).

Definition max64 : Z := 18446744073709551615.

(** ndn.lua L45-50 *)
Definition getNonNegativeInteger (b : block) : res Z :=
  if lis (b_length b) 1 || lis (b_length b) 2 || lis (b_length b) 4 || lis (b_length b) 8
  then bind (getValue b) (fun v => Ok (uint v))
  else Ok max64.

Definition hex_digit (upper : bool) (n : N) : N :=
  if (n <? 10)%N then (48 + n)%N else ((if upper then 55 else 87) + n)%N.
(** string.format("%02x"), "%02X" of a byte *)
Definition hex2 (upper : bool) (b : N) : text := [hex_digit upper (b / 16); hex_digit upper (b mod 16)].

(** tostring of a number or UInt64 *)
Definition decimal (z : Z) : text := to_string (Z.to_N z).

(** ndn.lua L52-67; the loop over single bytes is a map over the value *)
Definition getUriFromSha256DigestComponent (b : block) : res text :=
  if lis (b_type b) 1 then bind (getValue b) (fun v => Ok (str "sha256digest=" ++ flat_map (hex2 false) v))
  else if lis (b_type b) 2 then bind (getValue b) (fun v => Ok (str "params-sha256=" ++ flat_map (hex2 false) v))
  else LuaError.

(** the condition of ndn.lua L83 *)
Definition unreserved (ch : N) : bool :=
  ((0x41 <=? ch) && (ch <=? 0x5A) || (0x61 <=? ch) && (ch <=? 0x7A) || (0x30 <=? ch) && (ch <=? 0x39)
   || (ch =? 0x2D) || (ch =? 0x2E) || (ch =? 0x5F) || (ch =? 0x7E))%N.

(** ndn.lua L69-93 *)
Definition getUriFromNameComponent (b : block) : res text :=
  if lis (b_type b) 1 || lis (b_type b) 2 then getUriFromSha256DigestComponent b
  else
    bind (if lis (b_type b) 8 then Ok []
          else match b_type b with LNum t => Ok (decimal t ++ str "=") | LU64 _ => LuaError end) (fun s =>
    bind (getValue b) (fun v =>
    let hasNonPeriod := existsb (fun ch => negb (ch =? 0x2E)%N) v in
    Ok (s ++ flat_map (fun ch => if unreserved ch then [ch] else str "%" ++ hex2 true ch) v
          ++ (if hasNonPeriod then [] else str "...")))).

Fixpoint mapM {A B} (f : A -> res B) (l : list A) : res (list B) :=
  match l with
  | [] => Ok []
  | a :: l' => bind (f a) (fun b => bind (mapM f l') (fun bs => Ok (b :: bs)))
  end.

(** table.concat(components, "/") *)
Fixpoint concat_slash (l : list text) : text :=
  match l with
  | [] => []
  | [a] => a
  | a :: l' => a ++ str "/" ++ concat_slash l'
  end.

(** ndn.lua L95-105; [elements] is the field .elements of the block *)
Definition getUriFromName (elements : option (list block)) : res text :=
  match elements with
  | None => Ok (str "/")
  | Some es => bind (mapM getUriFromNameComponent es) (fun cs => Ok (str "/" ++ concat_slash cs))
  end.

(** ndn.lua L107-112 *)
Definition getUriFromFinalBlockId (elements : option (list block)) : res text :=
  match elements with
  | None => Ok (str "/")
  | Some [] => LuaError
  | Some (e :: _) => getUriFromNameComponent e
  end.

(** ndn.lua L114-124 *)
Definition getNackReasonDetail (b : block) : res text :=
  if lis (b_type b) 801 then
    bind (getNonNegativeInteger b) (fun code =>
      Ok (if code =? 0 then str "None"
          else if code =? 50 then str "Congestion"
          else if code =? 100 then str "Duplicate"
          else if code =? 150 then str "NoRoute"
          else decimal code))
  else LuaError.

(** ndn.lua L126-134 *)
Definition getCachePolicyDetail (b : block) : res text :=
  if lis (b_type b) 821 then
    bind (getNonNegativeInteger b) (fun code =>
      Ok (if code =? 0 then str "None"
          else if code =? 1 then str "NoCache"
          else decimal code ++ str " (unknown)"))
  else LuaError.

(** ndn.lua L136-142 *)
Definition getNonce (b : block) : res value :=
  if lis (b_type b) 10 then
    if negb (lis (b_length b) 4) then Ok (VText (str "invalid (should have 4 octets)"))
    else bind (getValue b) (fun v => Ok (VNumber (uint v)))
  else LuaError.

(** ndn.lua L144-150 *)
Definition getHopLimit (b : block) : res value :=
  if lis (b_type b) 34 then
    if negb (lis (b_length b) 1) then Ok (VText (str "invalid (should have 1 octet)"))
    else bind (getValue b) (fun v => Ok (VNumber (uint v)))
  else LuaError.

(** ndn.lua L160-170 *)
Definition canIgnoreTlvType (t : lnum) : res bool :=
  if (lval t <? 800) || (1000 <=? lval t) then Ok false
  else match t with LNum z => Ok (Z.odd z) | LU64 _ => LuaError end.

(** ndn.lua L172-192 *)
Definition getGenericBlockInfo (b : block) : res text :=
  let t := lval (b_type b) in
  bind (if t <=? 100 then Ok (str "Unrecognized from the reserved range 0-100")
        else if (100 <? t) && (t <? 800) then Ok (str "Unrecognized from the reserved range 101-799")
        else if (800 <=? t) && (t <=? 1000) then
          bind (canIgnoreTlvType (b_type b)) (fun i =>
            Ok (if i then str "Unknown field (ignored)" else str "Unknown field"))
        else Ok (str "RESERVED_3")) (fun name =>
    Ok (name ++ str ", Type: " ++ decimal t ++ str ", Length: " ++ decimal (lval (b_length b)))).

(** * The dictionary, ndn.lua L197-243 *)
Inductive field := FString | FUint | FBytes | FNone.
Inductive formatter :=
| FmName | FmComponent | FmTrue | FmNonce | FmInteger | FmHopLimit | FmFinal | FmNackReason | FmCachePolicy | FmNothing.
Record entry := Entry { e_name : string; e_field : field; e_value : formatter }.

Definition ndn_dict (t : lnum) : option entry :=
  match t with
  | LU64 _ => None
  | LNum z =>
      match z with
      | 7 => Some (Entry "Name" FString FmName)
      | 1 => Some (Entry "ImplicitSha256DigestComponent" FString FmComponent)
      | 2 => Some (Entry "ParametersSha256DigestComponent" FString FmComponent)
      | 8 => Some (Entry "GenericNameComponent" FString FmComponent)
      | 5 => Some (Entry "Interest" FNone FmNothing)
      | 33 => Some (Entry "CanBePrefix" FString FmTrue)
      | 18 => Some (Entry "MustBeFresh" FString FmTrue)
      | 30 => Some (Entry "ForwardingHint" FNone FmNothing)
      | 10 => Some (Entry "Nonce" FUint FmNonce)
      | 12 => Some (Entry "InterestLifetime" FUint FmInteger)
      | 34 => Some (Entry "HopLimit" FUint FmHopLimit)
      | 36 => Some (Entry "ApplicationParameters" FBytes FmNothing)
      | 6 => Some (Entry "Data" FNone FmNothing)
      | 20 => Some (Entry "MetaInfo" FNone FmNothing)
      | 24 => Some (Entry "ContentType" FUint FmInteger)
      | 25 => Some (Entry "FreshnessPeriod" FUint FmInteger)
      | 26 => Some (Entry "FinalBlockId" FString FmFinal)
      | 21 => Some (Entry "Content" FBytes FmNothing)
      | 22 => Some (Entry "SignatureInfo" FNone FmNothing)
      | 27 => Some (Entry "SignatureType" FUint FmInteger)
      | 28 => Some (Entry "KeyLocator" FNone FmNothing)
      | 29 => Some (Entry "KeyDigest" FBytes FmNothing)
      | 23 => Some (Entry "SignatureValue" FBytes FmNothing)
      | 80 => Some (Entry "Fragment" FNone FmNothing)
      | 81 => Some (Entry "Sequence" FUint FmInteger)
      | 82 => Some (Entry "FragIndex" FUint FmInteger)
      | 83 => Some (Entry "FragCount" FUint FmInteger)
      | 98 => Some (Entry "PitToken" FBytes FmNothing)
      | 100 => Some (Entry "LpPacket" FNone FmNothing)
      | 800 => Some (Entry "Nack" FNone FmNothing)
      | 801 => Some (Entry "NackReason" FString FmNackReason)
      | 812 => Some (Entry "IncomingFaceId" FUint FmInteger)
      | 816 => Some (Entry "NextHopFaceId" FUint FmInteger)
      | 820 => Some (Entry "CachePolicy" FNone FmNothing)
      | 821 => Some (Entry "CachePolicyType" FString FmCachePolicy)
      | 832 => Some (Entry "CongestionMark" FUint FmInteger)
      | 836 => Some (Entry "Ack" FUint FmInteger)
      | 840 => Some (Entry "TxSequence" FUint FmInteger)
      | _ => None
      end
  end.

(** info.value(block) *)
Definition format (f : formatter) (b : block) (elements : option (list block)) : res (option value) :=
  match f with
  | FmName => bind (getUriFromName elements) (fun t => Ok (Some (VText t)))
  | FmComponent => bind (getUriFromNameComponent b) (fun t => Ok (Some (VText t)))
  | FmTrue => Ok (Some (VText (str "Yes")))
  | FmNonce => bind (getNonce b) (fun v => Ok (Some v))
  | FmInteger => bind (getNonNegativeInteger b) (fun z => Ok (Some (VU64 z)))
  | FmHopLimit => bind (getHopLimit b) (fun v => Ok (Some v))
  | FmFinal => bind (getUriFromFinalBlockId elements) (fun t => Ok (Some (VText t)))
  | FmNackReason => bind (getNackReasonDetail b) (fun t => Ok (Some (VText t)))
  | FmCachePolicy => bind (getCachePolicyDetail b) (fun t => Ok (Some (VText t)))
  | FmNothing => Ok None
  end.

(** A tree item: the bytes it covers, the item it hangs on ([None]: the item of the whole
    packet made in L446), the name of the field and its value.  Without a value, the text
    shows type and length (L285). *)
Record item := Item {
  it_off : Z; it_size : Z; it_type : lnum; it_parent : option nat;
  it_name : string; it_value : option value
}.

(** root:add(field, range, value) *)
Definition field_accepts (f : field) (v : value) : bool :=
  match f, v with FUint, VText _ => false | _, _ => true end.

(** ndn.lua L267-297 *)
Definition addInfo (b : block) (elements : option (list block)) (parent : option nat) : res item :=
  let add (name : string) (f : field) (v : option value) :=
    bind (range (LNum (b_off b)) (b_size b)) (fun _ =>
      if match v with Some v => field_accepts f v | None => true end
      then Ok (Item (b_off b) (lval (b_size b)) (b_type b) parent name v) else LuaError) in
  match ndn_dict (b_type b) with
  | None => bind (getGenericBlockInfo b) (fun t => add ""%string FNone (Some (VText t)))
  | Some e => bind (format (e_value e) b elements) (fun v => add (e_name e) (e_field e) v)
  end.

(** ndn.lua L448-462; the queue holds blocks and the items they will hang on *)
Fixpoint addTree (fuel : nat) (queue : list (block * option nat)) (items : list item) : res unit * list item :=
  match queue with
  | [] => (Ok tt, items)
  | (b, parent) :: queue' =>
      match fuel with
      | O => (NoFuel, items)
      | S fuel' =>
          match getSubBlocks b with
          | Ok els =>
              match addInfo b els parent with
              | Ok it =>
                  let subs := match els with Some es => es | None => [] end in
                  addTree fuel' (queue' ++ map (fun c => (c, Some (length items))) subs) (items ++ [it])
              | LuaError => (LuaError, items)
              | NoFuel => (NoFuel, items)
              end
          | LuaError => (LuaError, items)
          | NoFuel => (NoFuel, items)
          end
      end
  end.

(** the "Info" column: packet type and name *)
Inductive pkt_type := PtNone | PtInterest | PtData | PtNack.

(** ndn.lua L480-491 *)
Definition note (b : block) (elements : option (list block)) (i : pkt_type * text) : res (pkt_type * text) :=
  let '(ty, nm) := i in
  let ty := if lis (b_type b) 5 && negb (match ty with PtNack => true | _ => false end) then PtInterest
            else if lis (b_type b) 6 then PtData
            else if lis (b_type b) 800 then PtNack
            else ty in
  if lis (b_type b) 7 then bind (getUriFromName elements) (fun u => Ok (ty, u))
  else Ok (ty, nm).

(** ndn.lua L464-492; the flag is [block.visited] *)
Fixpoint summarize (fuel : nat) (stack : list (block * bool)) (i : pkt_type * text) : res (pkt_type * text) :=
  match stack with
  | [] => Ok i
  | (b, visited) :: stack' =>
      match fuel with
      | O => NoFuel
      | S fuel' =>
          bind (getSubBlocks b) (fun els =>
          bind (note b els i) (fun i' =>
          match els with
          | Some es =>
              if visited then summarize fuel' stack' i'
              else summarize fuel' (rev (map (fun c => (c, false)) es) ++ (b, true) :: stack') i'
          | None => summarize fuel' stack' i'
          end))
      end
  end.

(** What the dissector leaves behind: the items below each packet's tree, the "Info" column,
    the offset from which more data is requested, and how it ended *)
Inductive ending := Finished | Failed | Endless.
Record result := Result {
  r_trees : list (list item);
  r_info  : option (pkt_type * text);
  r_deseg : option Z;
  r_end   : ending
}.
Definition abort {A} (r : res A) : ending := match r with Ok _ => Finished | LuaError => Failed | NoFuel => Endless end.

(** ndn.lua L519-528; [block] is nil, or a text, if there is no block *)
Definition finish (trees : list (list item)) (i : pkt_type * text) (left : Z) (b : option block) : result :=
  Result trees (Some i)
    (if (0 <? left) && (match b with Some b => left <? lval (b_size b) | None => false end)
     then Some (len - left) else None)
    Finished.

(** ndn.lua L444-517.  The block read in L506 has no tree (L446 is what makes one). *)
Fixpoint packets (fuel : nat) (b : block) (left : Z) (trees : list (list item)) (i : pkt_type * text) : result :=
  if lval (b_size b) <=? left then
    match fuel with
    | O => Result trees None None Endless
    | S fuel' =>
        match range (LNum (b_off b)) (b_size b) with
        | Ok _ =>
            match addTree (S (length buf)) [(b, None)] [] with
            | (Ok _, items) =>
                match summarize (S (length buf + length buf)) [(b, false)] i with
                | Ok i' =>
                    let left' := left - lval (b_size b) in
                    if 0 <? left' then
                      match getBlock (LNum (len - left')) with
                      | Ok (Some b') =>
                          if negb (canBeValidNdnPacket b') then finish (trees ++ [items]) i' left' (Some b')
                          else let tree : option unit := None in (* b'.tree *)
                               match tree with
                               | None => Result (trees ++ [items]) None None Failed
                               | Some _ => packets fuel' b' left' (trees ++ [items]) i'
                               end
                      | _ => finish (trees ++ [items]) i' left' None
                      end
                    else packets fuel' b left' (trees ++ [items]) i'
                | e => Result (trees ++ [items]) None None (abort e)
                end
            | (e, items) => Result (trees ++ [items]) None None (abort e)
            end
        | e => Result trees None None (abort e)
        end
    end
  else finish trees i left (Some b).

(** ndn.lua L421-529; [reported] is tvb:reported_len().  [None]: not an NDN packet. *)
Definition dissector (reported : Z) : option result :=
  if negb (len =? reported) then None
  else match findNdnPacket (length buf) 0 with
       | None => None
       | Some b => Some (packets (S (S (length buf))) b (len - b_off b) [] (PtNone, []))
       end.
End Buffer.
