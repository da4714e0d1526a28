(** The generated header Rte_Type.h as the sequence of lines handed to cfile's writer.
    Source: /repo/src/autosar/generator/type_generator.py.  No proofs in this file.
    Simplification: cfile is not modelled; each line stands for the call of its factory that makes
    it (the texts of comments are left out). *)
From Verif Require Import Base MTypes.

(** The calls C.ifndef, C.define, C.endif, C.include, C.line, C.blank, C.block_comment and
    C.statement(C.declaration(...)) of type_generator.py:47-66 *)
Inductive hline :=
| HIfndef (macro : string)
| HDefine (macro : string)
| HEndif
| HInclude (file : string)
| HText (text : string)
| HBlank
| HComment
| HDecl (d : cdecl).

(** include_guard, type_generator.py:45 *)
Definition include_guard : string := "RTE_TYPE_H_".
(** C.line(C.extern("C")), type_generator.py:52 *)
Definition extern_c : string := "extern ""C""".
(** The lines before and after the type definitions, type_generator.py:47-60, 62-66 *)
Definition header_start : list hline :=
  [HIfndef include_guard; HDefine include_guard; HBlank; HIfndef "__cplusplus"; HText extern_c; HText "{"; HEndif;
   HBlank; HComment; HInclude "Rte.h"; HBlank; HComment; HBlank].
Definition header_end : list hline := [HBlank; HIfndef "__cplusplus"; HText "}"; HEndif; HEndif].
(** _create_code_sequence, type_generator.py:43-67, which write_type_header_str, 26-32, and
    write_type_header, 34-41, write out *)
Definition header (s : imodel) : result (list hline) :=
  let* ds := gen_defs s in
  Ok (header_start ++ map HDecl ds ++ header_end).
