(** What the properties of the page of explain are stated with: characters, texts and links. *)
From Coq Require Import List String Ascii NArith Bool.
Import ListNotations.
Local Open Scope N_scope.

(** A character of Unicode *)
Definition character (v : N) : Prop := v < 55296 \/ 57343 < v < 1114112.
(** How a character is written in a string of JavaScript *)
Inductive units : N -> list N -> Prop :=
| one_unit : forall v, v < 65536 -> units v [v]
| two_units : forall v h l, v = 65536 + 1024 * h + l -> h < 1024 -> l < 1024 -> units v [55296 + h; 56320 + l].
(** A string of JavaScript is the text of these characters. *)
Inductive text_of : list N -> list N -> Prop :=
| text_nil : text_of [] []
| text_cons : forall v vs u s, character v -> units v u -> text_of vs s -> text_of (v :: vs) (u ++ s).
(** How a character is written in bytes: UTF-8, the shortest form *)
Inductive bytes : N -> list N -> Prop :=
| byte1 : forall v, v < 128 -> bytes v [v]
| byte2 : forall v a b, v = 64 * a + b -> 128 <= v -> a < 32 -> b < 64 -> bytes v [192 + a; 128 + b]
| byte3 : forall v a b c, v = 64 * (64 * a + b) + c -> 2048 <= v -> a < 16 -> b < 64 -> c < 64 ->
    bytes v [224 + a; 128 + b; 128 + c]
| byte4 : forall v a b c d, v = 64 * (64 * (64 * a + b) + c) + d -> 65536 <= v -> a < 8 -> b < 64 -> c < 64 -> d < 64 ->
    bytes v [240 + a; 128 + b; 128 + c; 128 + d].
Inductive bytes_of : list N -> list N -> Prop :=
| bytes_nil : bytes_of [] []
| bytes_cons : forall v vs u s, bytes v u -> bytes_of vs s -> bytes_of (v :: vs) (u ++ s).
Definition byte_string (l : list N) : string := string_of_list_ascii (map ascii_of_N l).

(** A character which stands in an address as it is *)
Definition address_character (c : N) : Prop :=
  In (ascii_of_N c)
     (list_ascii_of_string "ABCDEFGHIJKLMNOPQRSTUVWXYZabcdefghijklmnopqrstuvwxyz0123456789-_.!~*'()%") /\ c < 128.
