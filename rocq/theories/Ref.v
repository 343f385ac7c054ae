(* Reference walks: for each grammar of machine.go a structurally recursive function
   that yields, for EVERY input, the parts of the URN or the error (kind and column).
   Proof device standing between the goto program and Spec.v; also the explicit
   statement of which error is reported where (property C25). *)
From Verif Require Import GoBase MachineSyntax Machine Spec.
Local Open Scope Z_scope.

(* Observable content of a URN value (everything except rStart, qStart, tolower and
   SCIM.pos, which no API exposes). *)
Record pub := mkPub {
  p_prefix : bytes; p_ID : bytes; p_SS : bytes; p_norm : bytes; p_kind : Z;
  p_scim : option (Z * bytes * bytes);
  p_r : bytes; p_q : bytes; p_f : bytes
}.

Definition pub_of (u : URN) : pub :=
  mkPub (u_prefix u) (u_ID u) (u_SS u) (u_norm u) (u_kind u)
    (match u_scim u with Some s => Some (s_Type s, s_Name s, s_Other s) | None => None end)
    (u_r u) (u_q u) (u_f u).

(* Result of a Parse call: a URN, an error, or neither (nil, nil). *)
Inductive pout := OUrn (v : pub) | OErr (e : perr) | ONil.

(* Result of a walk over one part: error, silent failure, or the part read and the
   remaining input. *)
Inductive walk := WErr (e : perr) | WNil | WGo (w rest : bytes).

Definition wcons (c : byte) (k : walk) : walk :=
  match k with WGo w r => WGo (c :: w) r | _ => k end.

Section Mode.
Variable mode : Z.

(* err_hex only fires in RFC2141Only and RFC8141Only modes *)
Definition hx (e : errconst) : errconst :=
  if (mode =? PRFC2141Only) || (mode =? PRFC8141Only) then ErrHex else e.

Definition is (c : byte) (b : byte) : bool := Byte.eqb b c.
(* b is the letter l (lower case) in either case *)
Definition isl (l : byte) (b : byte) : bool := Byte.eqb (low b) l.

(* A fixed word given by its character classes; the error column is the position of
   the first mismatch. *)
Fixpoint ref_lit (e : errconst) (ps : list (byte -> bool)) (pos : Z) (s : bytes) : walk :=
  match ps with
  | [] => WGo [] s
  | p :: ps' =>
      match s with
      | [] => WErr (mkErr e pos)
      | c :: s' => if p c then wcons c (ref_lit e ps' (pos + 1) s') else WErr (mkErr e pos)
      end
  end.

(* "urn:" in any case *)
Definition ref_prefix (s : bytes) : walk :=
  ref_lit ErrPrefix [isl "u"; isl "r"; isl "n"; is ":"] 0 s.

(* the look-ahead of action throw_pre_urn_err (not in RFC8141Only mode) *)
Definition looks_urn (rest : bytes) : bool :=
  negb (mode =? PRFC8141Only) &&
  match nth_error rest 3 with Some c => Byte.eqb c ":" | None => false end.

(* at most n more NID characters, then ":" *)
Fixpoint ref_nidw (n : nat) (pos : Z) (s : bytes) : walk :=
  match s with
  | [] => WErr (mkErr ErrIdentifier pos)
  | c :: s' =>
      if is ":" c then WGo [] s'
      else if nid_char c then
        match n with
        | O => WErr (mkErr ErrIdentifier pos)
        | S n' => wcons c (ref_nidw n' (pos + 1) s')
        end
      else WErr (mkErr ErrIdentifier pos)
  end.

(* RFC 2141 NID and the ":" after it *)
Definition ref_nid2141 (pos : Z) (s : bytes) : walk :=
  match s with
  | [] => WErr (mkErr ErrIdentifier pos)
  | c :: s' =>
      if alnum c then
        if isl "u" c && looks_urn s then WErr (mkErr ErrNoUrnWithinID (pos + 3))
        else wcons c (ref_nidw 31 (pos + 1) s')
      else WErr (mkErr ErrIdentifier pos)
  end.

(* position inside an escaped string: at its beginning, after a plain character, after
   a complete percent escape *)
Inductive epos := EStart | EPlain | EHex.

(* RFC 2141 NSS up to the end of input; eH is reported for a broken percent escape and
   for an illegal character right after one, eS for any other illegal character; at the
   end of input xE gives the error for a missing NSS, xH for a truncated escape *)
Fixpoint ref_nss (eS eH : errconst) (xE xH : Z -> perr) (k : epos) (pos : Z) (s : bytes) : walk :=
  match s with
  | [] => match k with EStart => WErr (xE pos) | _ => WGo [] [] end
  | c :: s1 =>
      if is "%" c then
        match s1 with
        | [] => WErr (xH (pos + 1))
        | a :: s2 =>
            if alnum a then
              match s2 with
              | [] => WErr (xH (pos + 2))
              | b :: s3 =>
                  if alnum b then wcons c (wcons a (wcons b (ref_nss eS eH xE xH EHex (pos + 3) s3)))
                  else WErr (mkErr eH (pos + 2))
              end
            else WErr (mkErr eH (pos + 1))
        end
      else if sss c then wcons c (ref_nss eS eH xE xH EPlain (pos + 1) s1)
      else WErr (mkErr (match k with EHex => eH | _ => eS end) pos)
  end.

(* NSS of RFC 2141 *)
Definition ref_nss2141 : Z -> bytes -> walk :=
  let eH := hx ErrSpecificString in
  ref_nss ErrSpecificString eH (mkErr ErrSpecificString) (mkErr eH) EStart.

(* last part of a SCIM URN *)
Definition ref_other : Z -> bytes -> walk :=
  let inc (pos : Z) := mkErr ErrSCIMOtherIncomplete (pos - 1) in
  ref_nss ErrSCIMOther (hx ErrSCIMOther) inc
    (fun pos => if (mode =? PRFC2141Only) || (mode =? PRFC8141Only) then mkErr ErrHex pos else inc pos)
    EStart.

Definition ref2141 (s : bytes) : pout :=
  match ref_prefix s with
  | WErr e => OErr e
  | WNil => ONil
  | WGo pre rest =>
      match ref_nid2141 4 rest with
      | WErr e => OErr e
      | WNil => ONil
      | WGo nid rest =>
          match ref_nss2141 (5 + zlen nid) rest with
          | WErr e => OErr e
          | WNil => ONil
          | WGo nss _ =>
              OUrn (mkPub (firstn 3 pre) nid nss (norm_pct nss) KRFC2141 None [] [] [])
          end
      end
  end.

(* ---- SCIM -------------------------------------------------------------------- *)
(* the SCIM type and the ":" after it: a word determined by its first letter *)
Definition ref_scimtype (pos : Z) (s : bytes) : walk :=
  match s with
  | [] => WErr (mkErr ErrSCIMType pos)
  | c :: s' =>
      if is "a" c then wcons c (ref_lit ErrSCIMType (map is (B "pi:")) (pos + 1) s')
      else if is "p" c then wcons c (ref_lit ErrSCIMType (map is (B "aram:")) (pos + 1) s')
      else if is "s" c then wcons c (ref_lit ErrSCIMType (map is (B "chemas:")) (pos + 1) s')
      else WErr (mkErr ErrSCIMType pos)
  end.

(* alnum characters; stops before ":" or at the end; [first] while nothing was read *)
Fixpoint ref_name (first : bool) (pos : Z) (s : bytes) : walk :=
  match s with
  | [] => if first then WErr (mkErr ErrSCIMName pos) else WGo [] []
  | c :: s' =>
      if alnum c then wcons c (ref_name false (pos + 1) s')
      else if is ":" c && negb first then WGo [] s
      else WErr (mkErr ErrSCIMName pos)
  end.

(* the walks keep the trailing ":" of the type *)
Definition ref_scim (s : bytes) : pout :=
  match ref_prefix s with
  | WErr e => OErr e
  | WNil => ONil
  | WGo pre rest =>
      match ref_lit ErrSCIMNamespace (map is (B "ietf:params:scim:")) 4 rest with
      | WErr e => OErr e
      | WNil => ONil
      | WGo _ rest =>
          match ref_scimtype 21 rest with
          | WErr e => OErr e
          | WNil => ONil
          | WGo tc rest =>
              let t := removelast tc in
              match ref_name true (21 + zlen tc) rest with
              | WErr e => OErr e
              | WNil => ONil
              | WGo name [] =>
                  OUrn (mkPub (firstn 3 pre) scim_nid (t ++ colon ++ name) (norm_pct (t ++ colon ++ name))
                          KRFC7643 (Some (TypeFromString t, name, [])) [] [] [])
              | WGo name (_ :: rest) =>
                  match ref_other (22 + zlen tc + zlen name) rest with
                  | WErr e => OErr e
                  | WNil => ONil
                  | WGo other _ =>
                      OUrn (mkPub (firstn 3 pre) scim_nid (t ++ colon ++ name ++ colon ++ other)
                              (norm_pct (t ++ colon ++ name ++ colon ++ other))
                              KRFC7643 (Some (TypeFromString t, name, other)) [] [] [])
                  end
              end
          end
      end
  end.

(* ---- RFC 8141 ----------------------------------------------------------------- *)
(* progress through the reserved word "urn-" at the start of a NID *)
Inductive utrk := UNo | U1 | U2 | U3 | U4.
Definition utrk_next (t : utrk) (c : byte) : utrk :=
  match t with
  | U1 => if isl "r" c then U2 else UNo
  | U2 => if isl "n" c then U3 else UNo
  | U3 => if is "-" c then U4 else UNo
  | _ => UNo
  end.

(* n = how many more NID characters may follow; ok = the NID may end here *)
Fixpoint ref_nid8w (t : utrk) (n : nat) (ok : bool) (pos : Z) (s : bytes) {struct s} : walk :=
  let bad := WErr (mkErr Err8141Identifier pos) in
  match s with
  | [] => bad
  | c :: s' =>
      if is ":" c then (if ok then WGo [] s' else bad)
      else if is "-" c then
        match n with
        | S (S _ as n') => wcons c (ref_nid8w (utrk_next t c) n' false (pos + 1) s')
        | _ => bad
        end
      else if alnum c then
        match t with
        | U4 => if is "0" c || upper c || lower c then WErr (mkErr Err8141InformalID (pos - 1))
                else match n with
                     | S n' => wcons c (ref_nid8w UNo n' true (pos + 1) s')
                     | O => bad
                     end
        | _ => match n with
               | S n' => wcons c (ref_nid8w (utrk_next t c) n' true (pos + 1) s')
               | O => bad
               end
        end
      else bad
  end.

Definition ref_nid8141 (pos : Z) (s : bytes) : walk :=
  match s with
  | [] => WErr (mkErr Err8141Identifier pos)
  | c :: s' =>
      if alnum c then
        if isl "u" c && looks_urn s then WErr (mkErr ErrNoUrnWithinID (pos + 3))
        else wcons c (ref_nid8w (if isl "u" c then U1 else UNo) 31 false (pos + 1) s')
      else WErr (mkErr Err8141Identifier pos)
  end.

(* RFC 8141 NSS; stops before "?" or "#" or at the end *)
Fixpoint ref_nss8 (k : epos) (pos : Z) (s : bytes) : walk :=
  let eH := hx Err8141SpecificString in
  match s with
  | [] => match k with EStart => WErr (mkErr Err8141SpecificString pos) | _ => WGo [] [] end
  | c :: s1 =>
      if is "%" c then
        match s1 with
        | [] => WErr (mkErr eH (pos + 1))
        | a :: s2 =>
            if alnum a then
              match s2 with
              | [] => WErr (mkErr eH (pos + 2))
              | b :: s3 =>
                  if alnum b then wcons c (wcons a (wcons b (ref_nss8 EHex (pos + 3) s3)))
                  else WErr (mkErr eH (pos + 2))
              end
            else WErr (mkErr eH (pos + 1))
        end
      else if pchar c then wcons c (ref_nss8 EPlain (pos + 1) s1)
      else match k with
           | EStart => WErr (mkErr Err8141SpecificString pos)
           | _ =>
               if is "/" c then wcons c (ref_nss8 EPlain (pos + 1) s1)
               else if is "?" c || is "#" c then WGo [] s
               else WErr (mkErr (match k with EHex => eH | _ => Err8141SpecificString end) pos)
           end
  end.

(* err_hex alone (fragment): silent outside the two modes *)
Definition hx_or_nil (pos : Z) : walk :=
  if (mode =? PRFC2141Only) || (mode =? PRFC8141Only) then WErr (mkErr ErrHex pos) else WNil.

(* fragment, after the "#" *)
Fixpoint ref_frag (k : epos) (pos : Z) (s : bytes) : walk :=
  match s with
  | [] => WGo [] []
  | c :: s1 =>
      if is "%" c then
        match s1 with
        | [] => hx_or_nil (pos + 1)
        | a :: s2 =>
            if alnum a then
              match s2 with
              | [] => hx_or_nil (pos + 2)
              | b :: s3 =>
                  if alnum b then wcons c (wcons a (wcons b (ref_frag EHex (pos + 3) s3)))
                  else hx_or_nil (pos + 2)
              end
            else hx_or_nil (pos + 1)
        end
      else if frag_char c then wcons c (ref_frag EPlain (pos + 1) s1)
      else match k with EHex => hx_or_nil pos | _ => WNil end
  end.

(* position inside a q-component: at its start, after a plain character or an escape,
   after "?", after "?=" *)
Inductive qpos := QStart | QPlain | QHex | QQ | QQEq.

(* q-component; stops before "#" or at the end.  e0 is the error for a broken percent
   escape at the very start (it differs after an r-component, outside the usual modes) *)
Fixpoint ref_q (e0 : errconst) (k : qpos) (pos : Z) (s : bytes) : walk :=
  let eH := match k with QStart => e0 | _ => hx Err8141MalformedQComp end in
  let dup := WErr (mkErr Err8141QComponentStart pos) in
  let bad := WErr (mkErr (match k with QHex => eH | _ => Err8141MalformedQComp end) pos) in
  match s with
  | [] => match k with
          | QStart => bad
          | QQEq => dup
          | _ => WGo [] []
          end
  | c :: s1 =>
      if is "%" c then
        match k with
        | QQEq => dup
        | _ =>
            match s1 with
            | [] => WErr (mkErr eH (pos + 1))
            | a :: s2 =>
                if alnum a then
                  match s2 with
                  | [] => WErr (mkErr eH (pos + 2))
                  | b :: s3 =>
                      if alnum b then wcons c (wcons a (wcons b (ref_q e0 QHex (pos + 3) s3)))
                      else WErr (mkErr eH (pos + 2))
                  end
                else WErr (mkErr eH (pos + 1))
            end
        end
      else match k with
           | QStart =>
               if pchar c then wcons c (ref_q e0 QPlain (pos + 1) s1)
               else if is "?" c then
                 (* "?=?" must go on with "=", and then fails anyway *)
                 match s1 with
                 | [] => WErr (mkErr Err8141MalformedQComp (pos + 1))
                 | d :: s2 =>
                     if is "=" d then
                       match s2 with
                       | [] => WErr (mkErr Err8141QComponentStart (pos + 2))
                       | x :: _ => if pchar x || one_of "%?#" x
                                   then WErr (mkErr Err8141QComponentStart (pos + 2))
                                   else WErr (mkErr Err8141MalformedQComp (pos + 2))
                       end
                     else WErr (mkErr Err8141MalformedQComp (pos + 1))
                 end
               else bad
           | QQEq =>
               if is "/" c then wcons c (ref_q e0 QPlain (pos + 1) s1)
               else if pchar c || is "?" c || is "#" c then dup
               else bad
           | QQ =>
               if is "#" c then WGo [] s
               else if is "=" c then wcons c (ref_q e0 QQEq (pos + 1) s1)
               else if is "?" c then wcons c (ref_q e0 QQ (pos + 1) s1)
               else if pchar_slash c then wcons c (ref_q e0 QPlain (pos + 1) s1)
               else bad
           | _ =>
               if is "#" c then WGo [] s
               else if is "?" c then wcons c (ref_q e0 QQ (pos + 1) s1)
               else if pchar_slash c then wcons c (ref_q e0 QPlain (pos + 1) s1)
               else bad
           end
  end.

(* position inside an r-component *)
Inductive rpos := RStart | RPlain | RHex | RQ | RQPlus | RQEq.

(* r-component; stops before "#", at the end, or before the "?=" that opens the
   q-component (a "?=" followed by a pchar or "%") *)
Fixpoint ref_r (k : rpos) (pos : Z) (s : bytes) : walk :=
  let eH := hx Err8141MalformedRComp in
  let dup := WErr (mkErr Err8141RComponentStart pos) in
  let bad := WErr (mkErr (match k with RHex => eH | _ => Err8141MalformedRComp end) pos) in
  match s with
  | [] => match k with
          | RStart => bad
          | RQPlus => dup
          | _ => WGo [] []
          end
  | c :: s1 =>
      if is "%" c then
        match k with
        | RQPlus => dup
        | _ =>
            match s1 with
            | [] => WErr (mkErr eH (pos + 1))
            | a :: s2 =>
                if alnum a then
                  match s2 with
                  | [] => WErr (mkErr eH (pos + 2))
                  | b :: s3 =>
                      if alnum b then wcons c (wcons a (wcons b (ref_r RHex (pos + 3) s3)))
                      else WErr (mkErr eH (pos + 2))
                  end
                else WErr (mkErr eH (pos + 1))
            end
        end
      else match k with
           | RStart =>
               if pchar c then wcons c (ref_r RPlain (pos + 1) s1)
               else if is "?" c then
                 (* "?+?" must go on with "+", and then fails anyway *)
                 match s1 with
                 | [] => WErr (mkErr Err8141MalformedRComp (pos + 1))
                 | d :: s2 =>
                     if is "+" d then
                       match s2 with
                       | [] => WErr (mkErr Err8141RComponentStart (pos + 2))
                       | x :: _ => if pchar x || one_of "%?#" x
                                   then WErr (mkErr Err8141RComponentStart (pos + 2))
                                   else WErr (mkErr Err8141MalformedRComp (pos + 2))
                       end
                     else WErr (mkErr Err8141MalformedRComp (pos + 1))
                 end
               else bad
           | RQPlus =>
               if is "/" c then wcons c (ref_r RPlain (pos + 1) s1)
               else if pchar c || is "?" c || is "#" c then dup
               else bad
           | RQEq =>
               (* a pchar or "%" here was already seen by the RQ case *)
               if is "#" c then WGo [] s
               else if is "?" c then
                 match s1 with
                 | d :: x :: _ =>
                     if is "=" d && (pchar x || is "%" x) then WGo [] s
                     else wcons c (ref_r RQ (pos + 1) s1)
                 | _ => wcons c (ref_r RQ (pos + 1) s1)
                 end
               else if pchar_slash c then wcons c (ref_r RPlain (pos + 1) s1)
               else bad
           | _ =>
               if is "#" c then WGo [] s
               else if (match k with RQ => is "+" c | _ => false end)
                 then wcons c (ref_r RQPlus (pos + 1) s1)
               else if (match k with RQ => is "=" c | _ => false end)
                 then wcons c (ref_r RQEq (pos + 1) s1)
               else if is "?" c then
                 match s1 with
                 | d :: x :: _ =>
                     if is "=" d && (pchar x || is "%" x) then WGo [] s
                     else wcons c (ref_r RQ (pos + 1) s1)
                 | _ => wcons c (ref_r RQ (pos + 1) s1)
                 end
               else if pchar_slash c then wcons c (ref_r RPlain (pos + 1) s1)
               else bad
           end
  end.

(* "#" fragment or nothing; the remaining input starts with "#" or is empty *)
Definition ref_tailf (pos : Z) (s : bytes) : walk :=
  match s with
  | [] => WGo [] []
  | _ :: s' => ref_frag EStart (pos + 1) s'
  end.

Definition starts_urn_dash (w : bytes) : bool :=
  match w with
  | a :: b :: c :: d :: _ => isl "u" a && isl "r" b && isl "n" c && is "-" d
  | _ => false
  end.

Definition ref8141 (s : bytes) : pout :=
  match ref_prefix s with
  | WErr e => OErr e
  | WNil => ONil
  | WGo pre rest =>
  match ref_nid8141 4 rest with
  | WErr e => OErr e
  | WNil => ONil
  | WGo nid rest =>
  let prefix := if starts_urn_dash nid then firstn 3 nid else firstn 3 pre in
  let pos := 5 + zlen nid in
  match ref_nss8 EStart pos rest with
  | WErr e => OErr e
  | WNil => ONil
  | WGo nss rest =>
  let pos := pos + zlen nss in
  let finish (r q : bytes) (pos : Z) (rest : bytes) : pout :=
    match ref_tailf pos rest with
    | WErr e => OErr e
    | WNil => ONil
    | WGo f _ => OUrn (mkPub prefix nid nss (norm_pct nss) KRFC8141 None r q f)
    end in
  let qpart (e0 : errconst) (r : bytes) (pos : Z) (rest : bytes) : pout :=
    match ref_q e0 QStart pos rest with
    | WErr e => OErr e
    | WNil => ONil
    | WGo q rest => finish r q (pos + zlen q) rest
    end in
  match rest with
  | [] => finish [] [] pos rest
  | c :: rest1 =>
      if is "#" c then finish [] [] pos rest
      else (* c is "?" *)
        match rest1 with
        | [] => ONil
        | d :: rest2 =>
            if is "+" d then
              match ref_r RStart (pos + 2) rest2 with
              | WErr e => OErr e
              | WNil => ONil
              | WGo r rest3 =>
                  let pos := pos + 2 + zlen r in
                  match rest3 with
                  | c3 :: _ :: rest4 => if is "?" c3 then qpart (hx Err8141MalformedRComp) r (pos + 2) rest4
                                        else finish r [] pos rest3
                  | _ => finish r [] pos rest3
                  end
              end
            else if is "=" d then qpart (hx Err8141MalformedQComp) [] (pos + 2) rest2
            else ONil
        end
  end
  end
  end
  end.

End Mode.
