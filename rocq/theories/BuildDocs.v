(** The build script of the published crate: the text functions with which
    [UPDATE_DOCS=1 cargo build] copies the sections of README.md into the
    documentation comments of bitfields_impl/src/lib.rs
    (bitfields/build.rs:1-143).

    A text is the list of its Unicode scalar values.  The script slices by byte
    offsets, and every offset it uses is one returned by [find] or [rfind] or
    such an offset plus the length of the text found there, so the pieces are
    the same. *)
From Coq Require Import List NArith String Ascii Bool.
Import ListNotations.
Local Open Scope N_scope.

Definition text := list N.

(** An ASCII literal of the script as a text. *)
Fixpoint lit (s : string) : text :=
  match s with
  | EmptyString => []
  | String c s' => N_of_ascii c :: lit s'
  end.

Definition LF : N := 10.
Definition CR : N := 13.

(** core::str: what is left of [s] after the prefix [n]. *)
Fixpoint strip (n s : text) : option text :=
  match n, s with
  | [], _ => Some s
  | _ :: _, [] => None
  | x :: n', y :: s' => if N.eqb x y then strip n' s' else None
  end.

(** [str::find]: the text before the first place where [n] is found and the text
    after what is found there. *)
Fixpoint cut (n s : text) : option (text * text) :=
  match strip n s with
  | Some r => Some ([], r)
  | None =>
      match s with
      | [] => None
      | c :: s' => match cut n s' with
                   | Some (b, a) => Some (c :: b, a)
                   | None => None
                   end
      end
  end.

(** [str::rfind]: the same for the last place. *)
Fixpoint rcut (n s : text) : option (text * text) :=
  match s with
  | [] => match strip n s with Some r => Some ([], r) | None => None end
  | c :: s' =>
      match rcut n s' with
      | Some (b, a) => Some (c :: b, a)
      | None => match strip n s with Some r => Some ([], r) | None => None end
      end
  end.

(** [char::is_whitespace]: the Unicode property White_Space. *)
Definition white (c : N) : bool :=
  ((9 <=? c) && (c <=? 13)) || (c =? 32) || (c =? 133) || (c =? 160) || (c =? 5760)
  || ((8192 <=? c) && (c <=? 8202)) || (c =? 8232) || (c =? 8233) || (c =? 8239)
  || (c =? 8287) || (c =? 12288).

(** [str::trim]. *)
Fixpoint trim_start (s : text) : text :=
  match s with
  | c :: s' => if white c then trim_start s' else s
  | [] => []
  end.

Definition trim (s : text) : text := rev (trim_start (rev (trim_start s))).

(** [str::lines]: the pieces ended by a line feed, without it and without a
    carriage return before it, and the rest unless it is empty. *)
Definition chop (l : text) : text :=
  match rev l with
  | c :: r => if c =? CR then rev r else l
  | [] => l
  end.

Fixpoint lines_from (cur s : text) : list text :=
  match s with
  | [] => match cur with [] => [] | _ => [rev cur] end
  | c :: s' => if c =? LF then chop (rev cur) :: lines_from [] s' else lines_from (c :: cur) s'
  end.

Definition lines (s : text) : list text := lines_from [] s.

(** build.rs:36-52, [extract_content]: the loop shortens its rest in every round,
    the fuel is the length of the text. *)
Fixpoint extract_loop (fuel : nat) (rest start_tag end_tag : text) : text :=
  match fuel with
  | O => []
  | S fuel' =>
      match cut start_tag rest with
      | None => []
      | Some (_, rest1) =>
          match cut end_tag rest1 with
          | Some (inner, rest2) =>
              trim inner ++ [LF; LF] ++ extract_loop fuel' rest2 start_tag end_tag
          | None => extract_loop fuel' rest1 start_tag end_tag
          end
      end
  end.

Definition extract_content (source start_tag end_tag : text) : text :=
  trim (extract_loop (S (List.length source)) source start_tag end_tag).

(** build.rs:54-74, [inject_rust_block_prelude]. *)
Definition marker : text := lit "```rust".
Definition prelude : text := lit "# use bitfields_impl as bitfields;" ++ [LF].

Fixpoint inject_loop (fuel : nat) (rest : text) : text :=
  match fuel with
  | O => rest
  | S fuel' =>
      match cut marker rest with
      | None => rest
      | Some (b, a) =>
          match cut [LF] a with
          | Some (l, next) => b ++ marker ++ l ++ [LF] ++ prelude ++ inject_loop fuel' next
          | None => b ++ marker ++ a ++ prelude ++ inject_loop fuel' []
          end
      end
  end.

Definition inject_rust_block_prelude (content : text) : text :=
  inject_loop (S (List.length content)) content.

(** build.rs:76-86, [format_as_doc_comments]. *)
Definition slashes : text := lit "///".

Definition doc_line (l : text) : text :=
  match l with [] => slashes | _ => slashes ++ [32] ++ l end.

Fixpoint join_lf (ls : list text) : text :=
  match ls with
  | [] => []
  | [l] => l
  | l :: ls' => l ++ [LF] ++ join_lf ls'
  end.

Definition format_as_doc_comments (content : text) : text :=
  match content with
  | [] => []
  | _ => join_lf (map doc_line (lines content))
  end.

(** build.rs:88-110, [replace_between_tags]. *)
Definition doc_tag (tag : text) : text := slashes ++ [32] ++ tag.

Definition middle (new_content : text) : text :=
  match new_content with
  | [] => [LF]
  | _ => [LF] ++ format_as_doc_comments new_content ++ [LF]
  end.

Definition replace_between_tags (source start_tag end_tag new_content : text) : text :=
  match rcut (doc_tag start_tag) source with
  | Some (b, a) =>
      match cut (doc_tag end_tag) a with
      | Some (_, r) =>
          b ++ doc_tag start_tag ++ middle new_content ++ doc_tag end_tag ++ r
      | None => source
      end
  | None => source
  end.

(** build.rs:3-13: the tags. *)
Definition docs_start : text := lit "<!-- rust-docs-start -->".
Definition docs_end : text := lit "<!-- rust-docs-end -->".
Definition flags_start : text := lit "<!-- rust-bitflags-docs-start -->".
Definition flags_end : text := lit "<!-- rust-bitflags-docs-end -->".

(** build.rs:112-143, [update_lib_docs], without the reading and writing of the
    two files; main calls it only with UPDATE_DOCS set (21-34). *)
Definition section (readme start_tag end_tag : text) : text :=
  inject_rust_block_prelude (extract_content readme start_tag end_tag).

Definition update_lib_docs (readme lib : text) : text :=
  replace_between_tags
    (replace_between_tags lib docs_start docs_end (section readme docs_start docs_end))
    flags_start flags_end (section readme flags_start flags_end).
