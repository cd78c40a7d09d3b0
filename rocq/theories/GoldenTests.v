(** * GoldenTests: tests of the MODEL (not proofs of properties).

    Each [*.S] of /repo/tests is run through the model of the whole pipeline and
    compared with the [*.hex] next to it, the output of the real tool.  Generated
    from those files by copying their text.  The tactic [run_test] makes the build
    fail when the test fails; as these are tests, the evaluation is not part of
    the proof term (the independent checker has no virtual machine). *)

From Verif Require Import Base Text Main.

Ltac run_test b := let r := eval vm_compute in b in constr_eq r true; exact I.

Definition test_env : env := mk_env (u "c8s") (Err []) (fun s => s) None None None None [] [].

Definition assembles_to (src hex : string) : bool :=
  match assemble_text test_env (u "t.S") (u src) with
  | Done (Ok s) => str_eqb s (u hex)
  | _ => false
  end.

Definition fails_with (src msg : string) : bool :=
  match assemble_text test_env (u "t.S") (u src) with
  | Done (Err s) => str_eqb s (u msg)
  | _ => false
  end.

Definition src_test : string :=
";
; Copyright 2016 The c8s Developers. See the COPYRIGHT
; file at the top-level directory of this distribution.
;
; Licensed under the MIT license <LICENSE-MIT or http://opensource.org/licenses/MIT>.
; All files in the project carrying such notice may not be copied, modified, or 
; distributed except according to those terms.
;

.org $000
message:
  .db ""Hello, World!"", $00

.org $200
main:
  ; Load the Index register with the address of message.
  ld i, message
  trap
".

Definition hex_test : string :=
":0E00000048656C6C6F2C20576F726C64210089
:04020000A00000FA60
:00000001FF
".

Goal True. (* golden_test *)
Proof. run_test (assembles_to src_test hex_test). Qed.

Definition src_test_PONG : string :=
"; Note: this source has been modified by David WINTER on 17 SEP 1997
;       (only the syntax changed: it has been converted in CHIPPER)
; Note: this shorce has been modified by Martin Mroz on 26 JUN 2016
;       (only the syntax changed: it has been converted for c8s)
;
; The source could be optimized to save some bytes, but I didn't wanted
; to modify it since there is no specific interest in this.
;
; NOTE THAT THE ORIGINAL SOURCE HAD SEVERAL ERRORS !!!
;
; ---------------------------------------------------------------------------
;
; From: vervalin@AUSTIN.LOCKHEED.COM (Paul Vervalin)
;
;
;        OK folks here it is!  PONG for the HP48SX written in CHIP-48.
;        Some things you should know before you start playing are...
;        1)  This is my first attempt at programming in CHIP-48, so I
;            know there are probably a few things that could have been
;            done better.
;        2)  The game never ends.  It keeps score, but only up to 9 for
;            each player, then it will roll over to 0.  Sorry, its the
;            only way I could think of to do it.  So, you have to play
;            whoever gets to a number first, wins.
;        3)  It is kind of slow, but then there are two paddles and ball
;            moving around all at once.
;        4)  The player who got the last point gets the serve...
;        5)  Keys 7 and 4 (on the HP48) control the up and down of the
;            left player and the / and * keys control the up and down of
;            the right player.
;
;        I think that's about it, so have fun!
;
; This is a detailed breakdown of the game, sooooooo, if anybody wants to
; make it better, or change it in some way, it might be a little easier.
; Also, about half of the code was in some way extracted from the BRIX
; program.  So, thanks to whoever wrote the original BRIX game.
;
;
; Registers
; ---------
; V0-V3  are scratch registers
; V4     X coord. of score
; V5     Y coord. of score
; V6     X coord. of ball
; V7     Y coord. of ball
; V8     X direction of ball motion
; V9     Y direction of ball motion
; VA     X coord. of left player paddle
; VB     Y coord. of left player paddle
; VC     X coord. of right player paddle
; VD     Y coord. of right player paddle
; VE     Score
; VF     collision detection

.ORG $200

    LD  VA, 2  ; Set left player X coord.
    LD  VB, 12 ; Set left player Y coord.
    LD  VC, 63 ; Set right player X coord.
    LD  VD, 12 ; Set right player Y coord.

    LD  I,  Paddle ; Get address of paddle sprite
    DRW VA, VB, 6  ; Draw left paddle
    DRW VC, VD, 6  ; Draw right paddle

    LD  VE, 0       ; Set score to 00
    CALL Draw_Score ; Draw score

    LD  V6, 3 ; Set X coord. of ball to 3
    LD  V8, 2 ; Set ball X direction to right

Big_Loop:

    LD  V0, #60 ; Set V0=delay before ball launch
    LD  DT, V0  ; Set delay timer to V0
DT_Loop:        ;
    LD  V0, DT  ; Read delay timer into V0
    SE  V0, 0   ; Skip next instruction if V0=0
    JP  DT_Loop ; Read again delay timer if not 0

    RND V7, 23  ; Set Y coord. to rand # AND 23 (0...23)
    ADD V7, 8   ; And adjust it to is 8...31

    LD  V9, #FF   ; Set ball Y direction to up
    LD  I, Ball   ; Get address of ball sprite
    DRW V6, V7, 1 ; Draw ball

Padl_Loop:
    LD  I, Paddle ; Get address of paddle sprite
    DRW VA, VB, 6 ; Draw left paddle
    DRW VC, VD, 6 ; Draw right paddle

    LD  V0, 1   ; Set V0 to KEY 1
    SKNP V0     ; Skip next instruction if KEY in 1 is not pressed
    ADD VB, #FE ; Subtract 2 from Y coord. of left paddle

    LD  V0, 4   ; Set V0 to KEY 4
    SKNP V0     ; Skip next instruction if KEY in 4 is not pressed
    ADD VB, 2   ; Add 2 to Y coord. of left paddle

    LD  V0, 31    ; Set V0 to max Y coord.  | These three lines are here to
    AND VB, V0    ; AND VB with V0          | adjust the paddle position if
    DRW VA, VB, 6 ; Draw left paddle        | it is out of the screen

    LD  V0, #0C ; Set V0 to KEY C
    SKNP V0     ; Skip next instruction if KEY in C is not pressed
    ADD VD, #FE ; Subtract 2 from Y coord. of right paddle

    LD  V0, #0D ; Set V0 to KEY D
    SKNP V0     ; Skip next instruction if KEY in D is not pressed
    ADD VD, 2   ; Add 2 to Y coord. of right paddle

    LD  V0, 31    ; Set V0 to max Y coord.  | These three lines are here to
    AND VD, V0    ; AND VD with V0          | adjust the paddle position if
    DRW VC, VD, 6 ; Draw right paddle       | it is out of the screen

    LD  I, Ball   ; Get address of ball sprite
    DRW V6, V7, 1 ; Draw ball

    ADD V6, V8  ; Compute next X coord of the ball
    ADD V7, V9  ; Compute next Y coord of the ball

    LD  V0, 63  ; Set V0 to max X location
    AND V6, V0  ; AND V6 with V0

    LD  V1, 31  ; Set V1 to max Y location
    AND V7, V1  ; AND V7 with V1

    SNE V6, 2      ; Skip next instruction if ball not at left
    JP  Left_Side  ;

    SNE V6, 63     ; Skip next instruction if ball not at right
    JP  Right_Side ;

Ball_Loop:
    SNE V7, 31  ; Skip next instruction if ball not at bottom
    LD  V9, #FF ; Set Y direction to up

    SNE V7, 0   ; Skip next instruction if ball not at top
    LD  V9, 1   ; Set Y direction to down

    DRW V6, V7, 1 ; Draw ball
    JP  Padl_Loop ;

Left_Side:
    LD  V8, 2    ; Set X direction to right
    LD  V3, 1    ; Set V3 to 1 in case left player misses ball
    LD  V0, V7   ; Set V0 to V7 Y coord. of ball
    SUB V0, VB   ; Subtract position of paddle from ball
    JP  Pad_Coll ; Check for collision

Right_Side:
    LD  V8, 254  ; Set X direction to left
    LD  V3, 10   ; Set V3 to 10 in case right player misses ball
    LD  V0, V7   ; Set V0 to V7 Y coord. of ball
    SUB V0, VD   ; Subtract position of paddle from ball

Pad_Coll:
    SE  VF, 1     ; Skip next instruction if ball not above paddle
    JP  Ball_Lost ;

    LD  V1, 2    ; Set V1 to 02
    SUB V0, V1   ; Subtract V1 from V0
    SE  VF, 1    ; Skip next instr. if ball not at top of paddle
    JP  Ball_Top ; Ball at top of paddle

    SUB V0, V1   ; Subtract another 2 from V0
    SE  VF, 1    ; Skip next instr. if ball not at middle of paddle
    JP  Pad_Hit  ; Ball in middle of paddle

    SUB V0, V1   ; Subtract another 2 from V0
    SE  VF, 1    ; Skip next instr. if ball not at bottom of paddle
    JP  Ball_Bot ; Ball at bottom of paddle

Ball_Lost:
    LD  V0, 32  ; Set lost ball beep delay
    LD  ST, V0  ; Beep for lost ball

    CALL Draw_Score ; Erase previous score
    ADD VE, V3      ; Add 1 or 10 to score depending on V3
    CALL Draw_Score ; Write new score

    LD  V6, 62  ; Set ball X coord. to right side
    SE  V3, 1   ; Skip next instr. if right player got point
    LD  V6, 3   ; Set ball X coord. to left side
    LD  V8, #FE ; Set direction to left
    SE  V3, 1   ; Skip next instr. if right player got point
    LD  V8, 2   ; Set direction to right
    JP Big_Loop ;

Ball_Top:
    ADD V9, #FF ; Subtract 1 from V9, ball Y direction
    SNE V9, #FE ; Skip next instr. if V9 != FE (-2)
    LD  V9, #FF ; Set V9=FF (-1)
    JP  Pad_Hit

Ball_Bot:
    ADD V9, 1   ; Add 1 to V9, ball Y direction
    SNE V9, 2   ; Skip next instr. if V9 != 02
    LD  V9, 1   ; Set V9=01

Pad_Hit:
    LD  V0, 4   ; Set beep for paddle hit
    LD  ST, V0  ; Sound beep

    ADD V6, 1   ;
    SNE V6, 64  ;
    ADD V6, 254 ;

    JP  Ball_Loop

Draw_Score:
    LD  I,  Score   ; Get address of Score
    LD  B,  VE      ; Stores in memory BCD representation of VE
    LD  V2, [I]     ; Reads V0...V2 in memory, so the score
    LD  F,  V1      ; I points to hex char in V1, so the 1st score char
    LD  V4, #14     ; Set V4 to the X coord. to draw 1st score char
    LD  V5, 0       ; Set V5 to the Y coord. to draw 1st score char
    DRW V4, V5, 5   ; Draw 8*5 sprite at (V4,V5) from M[I], so char V1
    ADD V4, #15     ; Set X to the X coord. of 2nd score char
    LD  F,  V2      ; I points to hex char in V2, so 2nd score char
    DRW V4, V5, 5   ; Draw 8*5 sprite at (V4,V5) from M[I], so char V2
    RET             ; Return

Paddle:
    .DB #80, #80
    .DB #80, #80
    .DB #80, #80

Ball:
    .DB #80, #00

Score:
    .DB #00, #00
    .DB #00, #00
".

Definition hex_test_PONG : string :=
":100200006A026B0C6C3F6D0CA2EADAB6DCD66E00AB
:1002100022D4660368026060F015F0073000121AFD
:10022000C717770869FFA2F0D671A2EADAB6DCD662
:100230006001E0A17BFE6004E0A17B02601F8B02F5
:10024000DAB6600CE0A17DFE600DE0A17D02601FCA
:100250008D02DCD6A2F0D67186848794603F860238
:10026000611F871246021278463F1282471F69FFBC
:1002700047006901D671122A68026301807080B557
:10028000128A68FE630A807080D53F0112A2610263
:1002900080153F0112BA80153F0112C880153F0139
:1002A00012C26020F01822D48E3422D4663E33016C
:1002B000660368FE33016802121679FF49FE69FF82
:1002C00012C87901490269016004F01876014640BC
:1002D00076FE126CA2F2FE33F265F1296414650019
:1002E000D4557415F229D45500EE8080808080802A
:0602F00080000000000088
:00000001FF
".

Goal True. (* golden_test_PONG *)
Proof. run_test (assembles_to src_test_PONG hex_test_PONG). Qed.

Definition src_test_constants : string :=
"
.org $000
CONST_12B:  .equ    $FFF 
CONST_08B:  .equ    255
CONST_04B:  .equ    15
ZERO:       .equ    0

test:
  se    v0, CONST_08B
  se    v0, 255
  sne   v0, CONST_04B
  sne   v0, 15
  ld    v0, CONST_08B
  ld    v0, 255
  add   v0, CONST_04B
  add   v0, 15
  rnd   v0, CONST_08B
  rnd   v0, 255
  drw   v0, v1, CONST_04B
  drw   v0, v1, 15
  ld    v0, test
  ld    v0, 0
".

Definition hex_test_constants : string :=
":1000000030FF30FF400F400F60FF60FF700F700F38
:0C001000C0FFC0FFD01FD01F60006000C8
:00000001FF
".

Goal True. (* golden_test_constants *)
Proof. run_test (assembles_to src_test_constants hex_test_constants). Qed.

Definition src_test_directives : string :=
"
.org $200
natural_label: ; Value should be $200
  jp CONSTANT
CONSTANT: .equ $FFE
  .equ $FFF
".

Definition hex_test_directives : string :=
":020200001FFEDF
:00000001FF
".

(** /repo/tests/test_directives.hex exists, but the source has a [.equ] without a label, which
    the code of this commit rejects (assembler.rs:155-157). *)
Goal True. (* golden_test_directives_rejected *)
Proof. run_test (fails_with src_test_directives
"t.S:6:4-6: error: A constant must be defined immediately following a label name.
"). Qed.

Definition src_test_special_instructions : string :=
";
; Copyright 2016 The c8s Developers. See the COPYRIGHT
; file at the top-level directory of this distribution.
;
; Licensed under the MIT license <LICENSE-MIT or http://opensource.org/licenses/MIT>.
; All files in the project carrying such notice may not be copied, modified, or 
; distributed except according to those terms.
;

.ORG $200

  TRAP                    ; 00FA
  TRAPRET                 ; 00F9
".

Definition hex_test_special_instructions : string :=
":0402000000FA00F907
:00000001FF
".

Goal True. (* golden_test_special_instructions *)
Proof. run_test (assembles_to src_test_special_instructions hex_test_special_instructions). Qed.

Definition src_test_standard_instructions : string :=
";
; Copyright 2016 The c8s Developers. See the COPYRIGHT
; file at the top-level directory of this distribution.
;
; Licensed under the MIT license <LICENSE-MIT or http://opensource.org/licenses/MIT>.
; All files in the project carrying such notice may not be copied, modified, or 
; distributed except according to those terms.
;

.ORG $000
start_of_memory:
.ORG $100
in_reserved_area:
.ORG $200

  NOP                     ; 0000
  CLS                     ; 00E0
  RET                     ; 00EE
  TRAPRET                 ; 00F9
  TRAP                    ; 00FA

; SYS $address            ; 0nnn
  
  JP $000                 ; 1000
  JP start_of_memory      ; 1000
  JP #100                 ; 1100
  JP in_reserved_area     ; 1100
  JP 4095                 ; 1FFF

  CALL $000               ; 2000
  CALL start_of_memory    ; 2000
  CALL #100               ; 2100
  CALL in_reserved_area   ; 2100
  CALL 4095               ; 2FFF

  SE V0, 4                ; 3004
  SE V7, #F               ; 370F
  SE VF, 255              ; 3FFF

  SNE V0, 4               ; 4004
  SNE V7, #F              ; 470F
  SNE VF, $FF             ; 4FFF

  SE V0, V7               ; 5070
  SE V7, VF               ; 57F0
  SE VF, VF               ; 5FF0

  LD V0, 0                ; 6000
  LD V1, $7               ; 6107
  LD VF, #FF              ; 6FFF

  ADD V0, 0               ; 7000
  ADD V1, $7              ; 7107
  ADD VF, #FF             ; 7FFF

  LD V0, V0               ; 8000
  LD V1, V7               ; 8170
  LD VF, VF               ; 8FF0

  OR V0, V0               ; 8001
  OR V1, V7               ; 8171
  OR VF, VF               ; 8FF1

  AND V0, V0              ; 8002
  AND V1, V7              ; 8172
  AND VF, VF              ; 8FF2

  XOR V0, V0              ; 8003
  XOR V1, V7              ; 8173
  XOR VF, VF              ; 8FF3

  ADD V0, V0              ; 8004
  ADD V1, V7              ; 8174
  ADD VF, VF              ; 8FF4

  SUB V0, V0              ; 8005
  SUB V1, V7              ; 8175
  SUB VF, VF              ; 8FF5

  SHR V0                  ; 8006
  SHR V1                  ; 8106
  SHR VF                  ; 8F06

  SUBN V0, V0             ; 8007
  SUBN V1, V7             ; 8177
  SUBN VF, VF             ; 8FF7

  SHL V0                  ; 800E
  SHL V1                  ; 810E
  SHL VF                  ; 8F0E

  SNE V0, V7              ; 9070
  SNE V7, VF              ; 97F0
  SNE VF, VF              ; 9FF0

  LD I, 0                 ; A000
  LD I, #FF               ; A0FF
  LD I, $567              ; A567
  LD I, start_of_memory   ; A000
  LD I, in_reserved_area  ; A100

  JP V0, 0                ; B000
  JP V0, #FF              ; B0FF
  JP V0, $567             ; B567
  JP V0, start_of_memory  ; B000
  JP V0, in_reserved_area ; B100

  RND V0, 4               ; C004
  RND V7, #F              ; C70F
  RND VF, 255             ; CFFF

  DRW V0, V0, $0          ; D000
  DRW V1, V1, #1          ; D111
  DRW V2, VF, 1           ; D2F1
  DRW VF, V2, 15          ; DF2F

  SKP V0                  ; E09E
  SKP V1                  ; E19E
  SKP VF                  ; EF9E

  SKNP V0                 ; E0A1
  SKNP V1                 ; E1A1
  SKNP VF                 ; EFA1

  LD V0, DT               ; F007
  LD V1, DT               ; F107
  LD VF, DT               ; FF07

  LD V0, K                ; F00A
  LD V1, K                ; F10A
  LD VF, K                ; FF0A

  LD DT, V0               ; F015
  LD DT, V1               ; F115
  LD DT, VF               ; FF15

  LD ST, V0               ; F018
  LD ST, V1               ; F118
  LD ST, VF               ; FF18

  ADD I, V0               ; F01E
  ADD I, V1               ; F11E
  ADD I, VF               ; FF1E

  LD F, V0                ; F029
  LD F, V1                ; F129
  LD F, VF                ; FF29

  LD B, V0                ; F033
  LD B, V1                ; F133
  LD B, VF                ; FF33

  LD [I], V0              ; F055
  LD [I], V1              ; F155
  LD [I], VF              ; FF55

  LD V0, [I]              ; F065
  LD V1, [I]              ; F165
  LD VF, [I]              ; FF65
".

Definition hex_test_standard_instructions : string :=
":10020000000000E000EE00F900FA100010001100FC
:1002100011001FFF20002000210021002FFF3004CB
:10022000370F3FFF4004470F4FFF507057F05FF00C
:10023000600061076FFF700071077FFF80008170B1
:100240008FF0800181718FF1800281728FF28003C3
:1002500081738FF3800481748FF4800581758FF52D
:10026000800681068F06800781778FF7800E810ECA
:100270008F0E907097F09FF0A000A0FFA567A000E0
:10028000A100B000B0FFB567B000B100C004C70F57
:10029000CFFFD000D111D2F1DF2FE09EE19EEF9E83
:1002A000E0A1E1A1EFA1F007F107FF07F00AF10AD1
:1002B000FF0AF015F115FF15F018F118FF18F01EE0
:1002C000F11EFF1EF029F129FF29F033F133FF332E
:0C02D000F055F155FF55F065F165FF6534
:00000001FF
".

Goal True. (* golden_test_standard_instructions *)
Proof. run_test (assembles_to src_test_standard_instructions hex_test_standard_instructions). Qed.
