(* C65: every operation of the API, run from the text of the Go files, is the model's. *)
From Coq Require Import Lia.
From Verif Require Import GoAst.
From Verif Require Import GoBase MachineSyntax MachineTables Machine Urn Json.
From Verif Require GoPackage.
From Verif Require Heap.
From Verif Require Import GoSem SrcRender SrcSim Api PropsSrc SrcApi4 SrcHeap SrcHeap2 PropsSrc2.
Import ListNotations.
Local Open Scope string_scope.
Local Open Scope list_scope.

(* r: where in the Go heap h the objects of H are.  Any operation of Heap.v - the 22 exported
   functions and methods, and what a client can do with exported fields - made as a call of
   the text (calls): it panics when the model panics; otherwise it returns, the heap after it
   holds the objects of the model's heap, the pointers and values returned are the model's
   answer (shows), and no object of h but those in W has changed.  W has the receiver of
   UnmarshalJSON, of machine.Parse, of WithParsingMode and of an assignment, nothing else *)
Theorem C65_operations : forall uni newer n d r H h o W g, rel r H h -> Heap.valid o H -> needs o <= n -> 6 <= d ->
  calls uni newer n d r h o W g ->
  match Heap.exec uni newer o H with
  | Ret (H', x) => exists h' v r', g = GRet (h', v) /\ rel r' H' h' /\ grows r r' /\ kept h h' W /\ shows r' h' o x v
  | Panic => g = GPanic
  | OutOfFuel => False
  end.
Proof. exact operations. Qed.
Print Assumptions C65_operations.

(* a client program from the start: whatever it does to its own arrays in between, each call
   answers what the model answers, and one that panics in the model panics *)
Theorem C65_programs : forall uni newer n d l, Forall (fun o => needs o <= n) l -> 6 <= d -> holds uni newer l Heap.empty_heap ->
  answers uni newer n d l Heap.empty_heap no_locs GoPackage.package_heap.
Proof. exact programs. Qed.
Print Assumptions C65_programs.

(* the hypotheses can be met: loading leaves a related heap, and every operation can be called
   in every heap that has the package's variables *)
Theorem C65_callable : rel no_locs Heap.empty_heap GoPackage.package_heap /\
  (forall uni newer n d r h o, vars h -> exists h1 W g, client h h1 /\ calls uni newer n d r h1 o W g).
Proof. exact (conj start callable). Qed.
Print Assumptions C65_callable.

(* a program whose pointers hold objects where they are used: a SCIM URN, its SCIM renamed
   through SCIM(), the URN copied, marshalled, compared; a nil receiver at the end *)
Example C65_example :
  let l := [Heap.Parses (B "urn:ietf:params:scim:api:a:b") [PRFC7643Only]; Heap.SCIMs (Some 0); Heap.SetSCIMs (Some 0) 1 (B "x") (B "y");
            Heap.NewURNs (B "q") (B "r"); Heap.CopyURNs (Some 1) (Some 0); Heap.SCIMs (Some 1); Heap.SMarshals (Some 0);
            Heap.Equals (Some 0) (Some 1); Heap.Unmarshals (Some 1) (B """urn:a:b"""); Heap.Strings (Some 1); Heap.Strings None] in
  holds (fun s => s) false l Heap.empty_heap /\ Forall (fun o => needs o <= 200) l /\
  (match Heap.program (fun s => s) false (removelast l) Heap.empty_heap with
   | Ret (_, [Heap.AURN (Some 0) true; Heap.ASCIM (Some 0); Heap.Nothing; Heap.AURN (Some 1) true; Heap.Nothing; Heap.ASCIM (Some 0);
       Heap.AText t; Heap.ABool true; Heap.AJerr None; Heap.AText s]) => t = B """urn:ietf:params:scim:schemas:x:y""" /\ s = B "urn:a:b"
   | _ => False
   end) /\
  Heap.program (fun s => s) false l Heap.empty_heap = Panic.
Proof. cbv zeta. split; [|split; [|split]]. 
  - vm_compute. repeat split; lia.
  - repeat constructor; apply PeanoNat.Nat.leb_le; vm_compute; reflexivity.
  - vm_compute. split; reflexivity.
  - vm_compute. reflexivity.
Qed.
(* the text itself, run: Parse with an option, then String, MarshalJSON and a nil receiver *)
Example C65_example_text :
  let run := GoPackage.run (fun s => s) false 200 6 in
  match run "WithParsingMode" [VInt "ParsingMode" 2] (GoPackage.package_heap ++ [Arr "byte" (map VByte (B "urn:ietf:params:scim:api:a:b"))]) with
  | GRet (h, opt) =>
      match run "Parse" [VSlice 2 0 28; opt] h with
      | GRet (h, VTuple [VPtr u; VBool true]) =>
          (match run "URN.String" [VPtr u] h with GRet (_, v) => v = VStr (B "urn:ietf:params:scim:api:a:b") | _ => False end) /\
          (match run "URN.SCIM" [VPtr u] h with
           | GRet (h, VPtr s) => (match get h s with Some (Cell v) => match run "SCIM.MarshalJSON" [v] h with GRet (_, VTuple [VSlice _ _ 30; VNil _]) => True | _ => False end | _ => False end)
           | _ => False
           end)
      | _ => False
      end
  | _ => False
  end /\
  run "URN.String" [VNil "URN"] GoPackage.package_heap = GPanic.
Proof. vm_compute. repeat split. Qed.
