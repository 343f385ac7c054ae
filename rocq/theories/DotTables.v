(* GENERATED by gen/gen_dot.py from /repo/docs/urn.dot -- do not edit.
   The drawing, edge by edge; the number in each comment is the line in docs/urn.dot. *)
From Coq Require Import NArith List Strings.String.
From Verif Require Import RagelRl.
Import ListNotations.
Local Open Scope N_scope.

(* The names on the edges: an action that machine.go.rl has too, the action err_parse, which
   it does not have, and the actions written in place, drawn as line:column. *)
Inductive dact := Named (a : action) | ErrParse | Inline (line col : N).

(* docs/urn.dot:208-442: from, to, the ranges of bytes, the actions *)
Definition dot_edges : list (N * N * list (N * N) * list dact) :=
  [(1, 2, [(85, 85); (117, 117)], [Named a_mark; Named a_throw_pre_urn_err]) (* 208 *);
   (2, 3, [(82, 82); (114, 114)], []) (* 210 *);
   (3, 4, [(78, 78); (110, 110)], []) (* 212 *);
   (4, 87, [(58, 58)], [Named a_set_pre; Inline 235 33]) (* 214 *);
   (5, 6, [(48, 57); (65, 84); (86, 90); (97, 116); (118, 122)], [Named a_mark]) (* 216 *);
   (5, 41, [(85, 85); (117, 117)], [Named a_mark; Named a_throw_pre_urn_err]) (* 217 *);
   (6, 7, [(45, 45); (48, 57); (65, 90); (97, 122)], []) (* 219 *);
   (6, 38, [(58, 58)], [Named a_set_nid]) (* 220 *);
   (7, 8, [(45, 45); (48, 57); (65, 90); (97, 122)], []) (* 222 *);
   (7, 38, [(58, 58)], [Named a_set_nid]) (* 223 *);
   (8, 9, [(45, 45); (48, 57); (65, 90); (97, 122)], []) (* 225 *);
   (8, 38, [(58, 58)], [Named a_set_nid]) (* 226 *);
   (9, 10, [(45, 45); (48, 57); (65, 90); (97, 122)], []) (* 228 *);
   (9, 38, [(58, 58)], [Named a_set_nid]) (* 229 *);
   (10, 11, [(45, 45); (48, 57); (65, 90); (97, 122)], []) (* 231 *);
   (10, 38, [(58, 58)], [Named a_set_nid]) (* 232 *);
   (11, 12, [(45, 45); (48, 57); (65, 90); (97, 122)], []) (* 234 *);
   (11, 38, [(58, 58)], [Named a_set_nid]) (* 235 *);
   (12, 13, [(45, 45); (48, 57); (65, 90); (97, 122)], []) (* 237 *);
   (12, 38, [(58, 58)], [Named a_set_nid]) (* 238 *);
   (13, 14, [(45, 45); (48, 57); (65, 90); (97, 122)], []) (* 240 *);
   (13, 38, [(58, 58)], [Named a_set_nid]) (* 241 *);
   (14, 15, [(45, 45); (48, 57); (65, 90); (97, 122)], []) (* 243 *);
   (14, 38, [(58, 58)], [Named a_set_nid]) (* 244 *);
   (15, 16, [(45, 45); (48, 57); (65, 90); (97, 122)], []) (* 246 *);
   (15, 38, [(58, 58)], [Named a_set_nid]) (* 247 *);
   (16, 17, [(45, 45); (48, 57); (65, 90); (97, 122)], []) (* 249 *);
   (16, 38, [(58, 58)], [Named a_set_nid]) (* 250 *);
   (17, 18, [(45, 45); (48, 57); (65, 90); (97, 122)], []) (* 252 *);
   (17, 38, [(58, 58)], [Named a_set_nid]) (* 253 *);
   (18, 19, [(45, 45); (48, 57); (65, 90); (97, 122)], []) (* 255 *);
   (18, 38, [(58, 58)], [Named a_set_nid]) (* 256 *);
   (19, 20, [(45, 45); (48, 57); (65, 90); (97, 122)], []) (* 258 *);
   (19, 38, [(58, 58)], [Named a_set_nid]) (* 259 *);
   (20, 21, [(45, 45); (48, 57); (65, 90); (97, 122)], []) (* 261 *);
   (20, 38, [(58, 58)], [Named a_set_nid]) (* 262 *);
   (21, 22, [(45, 45); (48, 57); (65, 90); (97, 122)], []) (* 264 *);
   (21, 38, [(58, 58)], [Named a_set_nid]) (* 265 *);
   (22, 23, [(45, 45); (48, 57); (65, 90); (97, 122)], []) (* 267 *);
   (22, 38, [(58, 58)], [Named a_set_nid]) (* 268 *);
   (23, 24, [(45, 45); (48, 57); (65, 90); (97, 122)], []) (* 270 *);
   (23, 38, [(58, 58)], [Named a_set_nid]) (* 271 *);
   (24, 25, [(45, 45); (48, 57); (65, 90); (97, 122)], []) (* 273 *);
   (24, 38, [(58, 58)], [Named a_set_nid]) (* 274 *);
   (25, 26, [(45, 45); (48, 57); (65, 90); (97, 122)], []) (* 276 *);
   (25, 38, [(58, 58)], [Named a_set_nid]) (* 277 *);
   (26, 27, [(45, 45); (48, 57); (65, 90); (97, 122)], []) (* 279 *);
   (26, 38, [(58, 58)], [Named a_set_nid]) (* 280 *);
   (27, 28, [(45, 45); (48, 57); (65, 90); (97, 122)], []) (* 282 *);
   (27, 38, [(58, 58)], [Named a_set_nid]) (* 283 *);
   (28, 29, [(45, 45); (48, 57); (65, 90); (97, 122)], []) (* 285 *);
   (28, 38, [(58, 58)], [Named a_set_nid]) (* 286 *);
   (29, 30, [(45, 45); (48, 57); (65, 90); (97, 122)], []) (* 288 *);
   (29, 38, [(58, 58)], [Named a_set_nid]) (* 289 *);
   (30, 31, [(45, 45); (48, 57); (65, 90); (97, 122)], []) (* 291 *);
   (30, 38, [(58, 58)], [Named a_set_nid]) (* 292 *);
   (31, 32, [(45, 45); (48, 57); (65, 90); (97, 122)], []) (* 294 *);
   (31, 38, [(58, 58)], [Named a_set_nid]) (* 295 *);
   (32, 33, [(45, 45); (48, 57); (65, 90); (97, 122)], []) (* 297 *);
   (32, 38, [(58, 58)], [Named a_set_nid]) (* 298 *);
   (33, 34, [(45, 45); (48, 57); (65, 90); (97, 122)], []) (* 300 *);
   (33, 38, [(58, 58)], [Named a_set_nid]) (* 301 *);
   (34, 35, [(45, 45); (48, 57); (65, 90); (97, 122)], []) (* 303 *);
   (34, 38, [(58, 58)], [Named a_set_nid]) (* 304 *);
   (35, 36, [(45, 45); (48, 57); (65, 90); (97, 122)], []) (* 306 *);
   (35, 38, [(58, 58)], [Named a_set_nid]) (* 307 *);
   (36, 37, [(45, 45); (48, 57); (65, 90); (97, 122)], []) (* 309 *);
   (36, 38, [(58, 58)], [Named a_set_nid]) (* 310 *);
   (37, 38, [(58, 58)], [Named a_set_nid]) (* 312 *);
   (38, 88, [(33, 33); (36, 36); (39, 46); (48, 59); (61, 61); (64, 90); (95, 95); (97, 122)], [Named a_mark]) (* 314 *);
   (38, 39, [(37, 37)], [Named a_mark]) (* 315 *);
   (39, 40, [(48, 57); (97, 122)], []) (* 317 *);
   (39, 40, [(65, 90)], [Named a_tolower]) (* 318 *);
   (40, 89, [(48, 57); (97, 122)], []) (* 320 *);
   (40, 89, [(65, 90)], [Named a_tolower]) (* 321 *);
   (41, 7, [(45, 45); (48, 57); (65, 81); (83, 90); (97, 113); (115, 122)], []) (* 323 *);
   (41, 38, [(58, 58)], [Named a_set_nid]) (* 324 *);
   (41, 42, [(82, 82); (114, 114)], []) (* 325 *);
   (42, 8, [(45, 45); (48, 57); (65, 77); (79, 90); (97, 109); (111, 122)], []) (* 327 *);
   (42, 38, [(58, 58)], [Named a_set_nid]) (* 328 *);
   (42, 43, [(78, 78); (110, 110)], []) (* 329 *);
   (43, 9, [(45, 45); (48, 57); (65, 90); (97, 122)], []) (* 331 *);
   (44, 45, [(85, 85); (117, 117)], [Named a_mark; Named a_throw_pre_urn_err]) (* 333 *);
   (45, 46, [(82, 82); (114, 114)], []) (* 335 *);
   (46, 47, [(78, 78); (110, 110)], []) (* 337 *);
   (47, 90, [(58, 58)], [Named a_set_pre; Inline 215 36]) (* 339 *);
   (48, 49, [(105, 105)], [Named a_mark]) (* 341 *);
   (49, 50, [(101, 101)], []) (* 343 *);
   (50, 51, [(116, 116)], []) (* 345 *);
   (51, 52, [(102, 102)], []) (* 347 *);
   (52, 53, [(58, 58)], []) (* 349 *);
   (53, 54, [(112, 112)], []) (* 351 *);
   (54, 55, [(97, 97)], []) (* 353 *);
   (55, 56, [(114, 114)], []) (* 355 *);
   (56, 57, [(97, 97)], []) (* 357 *);
   (57, 58, [(109, 109)], []) (* 359 *);
   (58, 59, [(115, 115)], []) (* 361 *);
   (59, 60, [(58, 58)], []) (* 363 *);
   (60, 61, [(115, 115)], []) (* 365 *);
   (61, 62, [(99, 99)], []) (* 367 *);
   (62, 63, [(105, 105)], []) (* 369 *);
   (63, 64, [(109, 109)], []) (* 371 *);
   (64, 65, [(58, 58)], [Named a_set_nid; Named a_create_scim]) (* 373 *);
   (65, 66, [(97, 97)], [Named a_mark]) (* 375 *);
   (65, 73, [(112, 112)], [Named a_mark]) (* 376 *);
   (65, 77, [(115, 115)], [Named a_mark]) (* 377 *);
   (66, 67, [(112, 112)], []) (* 379 *);
   (67, 68, [(105, 105)], []) (* 381 *);
   (68, 69, [(58, 58)], [Named a_set_scim_type]) (* 383 *);
   (69, 91, [(48, 57); (65, 90); (97, 122)], [Named a_mark_scim_name]) (* 385 *);
   (70, 92, [(33, 33); (36, 36); (39, 46); (48, 59); (61, 61); (64, 90); (95, 95); (97, 122)], [Named a_mark_scim_other]) (* 387 *);
   (70, 71, [(37, 37)], [Named a_mark_scim_other]) (* 388 *);
   (71, 72, [(48, 57); (97, 122)], []) (* 390 *);
   (71, 72, [(65, 90)], [Named a_tolower]) (* 391 *);
   (72, 93, [(48, 57); (97, 122)], []) (* 393 *);
   (72, 93, [(65, 90)], [Named a_tolower]) (* 394 *);
   (73, 74, [(97, 97)], []) (* 396 *);
   (74, 75, [(114, 114)], []) (* 398 *);
   (75, 76, [(97, 97)], []) (* 400 *);
   (76, 68, [(109, 109)], []) (* 402 *);
   (77, 78, [(99, 99)], []) (* 404 *);
   (78, 79, [(104, 104)], []) (* 406 *);
   (79, 80, [(101, 101)], []) (* 408 *);
   (80, 81, [(109, 109)], []) (* 410 *);
   (81, 82, [(97, 97)], []) (* 412 *);
   (82, 68, [(115, 115)], []) (* 414 *);
   (83, 84, [(85, 85); (117, 117)], [Named a_mark; Named a_throw_pre_urn_err]) (* 416 *);
   (84, 85, [(82, 82); (114, 114)], []) (* 418 *);
   (85, 86, [(78, 78); (110, 110)], []) (* 420 *);
   (86, 94, [(58, 58)], [Named a_set_pre; Inline 229 37]) (* 422 *);
   (88, 88, [(33, 33); (36, 36); (39, 46); (48, 59); (61, 61); (64, 90); (95, 95); (97, 122)], []) (* 425 *);
   (88, 39, [(37, 37)], []) (* 426 *);
   (89, 88, [(33, 33); (36, 36); (39, 46); (48, 59); (61, 61); (64, 90); (95, 95); (97, 122)], []) (* 428 *);
   (89, 39, [(37, 37)], []) (* 429 *);
   (91, 91, [(48, 57); (65, 90); (97, 122)], []) (* 432 *);
   (91, 70, [(58, 58)], [Named a_set_scim_name]) (* 433 *);
   (92, 92, [(33, 33); (36, 36); (39, 46); (48, 59); (61, 61); (64, 90); (95, 95); (97, 122)], []) (* 435 *);
   (92, 71, [(37, 37)], []) (* 436 *);
   (93, 92, [(33, 33); (36, 36); (39, 46); (48, 59); (61, 61); (64, 90); (95, 95); (97, 122)], []) (* 438 *);
   (93, 71, [(37, 37)], []) (* 439 *);
   (95, 95, [(0, 9); (11, 12); (14, 255)], []) (* 442 *)].

(* docs/urn.dot: the edges DEF, to an error state: for the bytes no other edge takes *)
Definition dot_defs : list (N * list dact) :=
  [(1, [Named a_err_pre; ErrParse]) (* 209 *);
   (2, [Named a_err_pre; ErrParse]) (* 211 *);
   (3, [Named a_err_pre; ErrParse]) (* 213 *);
   (4, [Named a_err_pre; ErrParse]) (* 215 *);
   (5, [Named a_err_nid; Named a_err_pre; ErrParse]) (* 218 *);
   (6, [Named a_err_nid; ErrParse]) (* 221 *);
   (7, [Named a_err_nid; ErrParse]) (* 224 *);
   (8, [Named a_err_nid; ErrParse]) (* 227 *);
   (9, [Named a_err_nid; ErrParse]) (* 230 *);
   (10, [Named a_err_nid; ErrParse]) (* 233 *);
   (11, [Named a_err_nid; ErrParse]) (* 236 *);
   (12, [Named a_err_nid; ErrParse]) (* 239 *);
   (13, [Named a_err_nid; ErrParse]) (* 242 *);
   (14, [Named a_err_nid; ErrParse]) (* 245 *);
   (15, [Named a_err_nid; ErrParse]) (* 248 *);
   (16, [Named a_err_nid; ErrParse]) (* 251 *);
   (17, [Named a_err_nid; ErrParse]) (* 254 *);
   (18, [Named a_err_nid; ErrParse]) (* 257 *);
   (19, [Named a_err_nid; ErrParse]) (* 260 *);
   (20, [Named a_err_nid; ErrParse]) (* 263 *);
   (21, [Named a_err_nid; ErrParse]) (* 266 *);
   (22, [Named a_err_nid; ErrParse]) (* 269 *);
   (23, [Named a_err_nid; ErrParse]) (* 272 *);
   (24, [Named a_err_nid; ErrParse]) (* 275 *);
   (25, [Named a_err_nid; ErrParse]) (* 278 *);
   (26, [Named a_err_nid; ErrParse]) (* 281 *);
   (27, [Named a_err_nid; ErrParse]) (* 284 *);
   (28, [Named a_err_nid; ErrParse]) (* 287 *);
   (29, [Named a_err_nid; ErrParse]) (* 290 *);
   (30, [Named a_err_nid; ErrParse]) (* 293 *);
   (31, [Named a_err_nid; ErrParse]) (* 296 *);
   (32, [Named a_err_nid; ErrParse]) (* 299 *);
   (33, [Named a_err_nid; ErrParse]) (* 302 *);
   (34, [Named a_err_nid; ErrParse]) (* 305 *);
   (35, [Named a_err_nid; ErrParse]) (* 308 *);
   (36, [Named a_err_nid; ErrParse]) (* 311 *);
   (37, [Named a_err_nid; ErrParse]) (* 313 *);
   (38, [Named a_err_nss; ErrParse]) (* 316 *);
   (39, [Named a_err_hex; Named a_err_nss; ErrParse]) (* 319 *);
   (40, [Named a_err_hex; Named a_err_nss; ErrParse]) (* 322 *);
   (41, [Named a_err_nid; Named a_err_pre; ErrParse]) (* 326 *);
   (42, [Named a_err_nid; Named a_err_pre; ErrParse]) (* 330 *);
   (43, [Named a_err_nid; Named a_err_urn; ErrParse]) (* 332 *);
   (44, [Named a_err_pre]) (* 334 *);
   (45, [Named a_err_pre]) (* 336 *);
   (46, [Named a_err_pre]) (* 338 *);
   (47, [Named a_err_pre]) (* 340 *);
   (48, [Named a_err_scim_nid]) (* 342 *);
   (49, [Named a_err_scim_nid]) (* 344 *);
   (50, [Named a_err_scim_nid]) (* 346 *);
   (51, [Named a_err_scim_nid]) (* 348 *);
   (52, [Named a_err_scim_nid]) (* 350 *);
   (53, [Named a_err_scim_nid]) (* 352 *);
   (54, [Named a_err_scim_nid]) (* 354 *);
   (55, [Named a_err_scim_nid]) (* 356 *);
   (56, [Named a_err_scim_nid]) (* 358 *);
   (57, [Named a_err_scim_nid]) (* 360 *);
   (58, [Named a_err_scim_nid]) (* 362 *);
   (59, [Named a_err_scim_nid]) (* 364 *);
   (60, [Named a_err_scim_nid]) (* 366 *);
   (61, [Named a_err_scim_nid]) (* 368 *);
   (62, [Named a_err_scim_nid]) (* 370 *);
   (63, [Named a_err_scim_nid]) (* 372 *);
   (64, [Named a_err_scim_nid]) (* 374 *);
   (65, [Named a_err_scim_type]) (* 378 *);
   (66, [Named a_err_scim_type]) (* 380 *);
   (67, [Named a_err_scim_type]) (* 382 *);
   (68, [Named a_err_scim_type]) (* 384 *);
   (69, [Named a_err_scim_name]) (* 386 *);
   (70, [Named a_err_scim_other]) (* 389 *);
   (71, [Named a_err_hex; Named a_err_scim_other]) (* 392 *);
   (72, [Named a_err_hex; Named a_err_scim_other]) (* 395 *);
   (73, [Named a_err_scim_type]) (* 397 *);
   (74, [Named a_err_scim_type]) (* 399 *);
   (75, [Named a_err_scim_type]) (* 401 *);
   (76, [Named a_err_scim_type]) (* 403 *);
   (77, [Named a_err_scim_type]) (* 405 *);
   (78, [Named a_err_scim_type]) (* 407 *);
   (79, [Named a_err_scim_type]) (* 409 *);
   (80, [Named a_err_scim_type]) (* 411 *);
   (81, [Named a_err_scim_type]) (* 413 *);
   (82, [Named a_err_scim_type]) (* 415 *);
   (83, [Named a_err_pre]) (* 417 *);
   (84, [Named a_err_pre]) (* 419 *);
   (85, [Named a_err_pre]) (* 421 *);
   (86, [Named a_err_pre]) (* 423 *);
   (87, [Named a_err_pre; ErrParse]) (* 424 *);
   (88, [Named a_err_nss; ErrParse]) (* 427 *);
   (89, [Named a_err_hex; Named a_err_nss; ErrParse]) (* 430 *);
   (90, [Named a_err_pre]) (* 431 *);
   (91, [Named a_err_scim_name]) (* 434 *);
   (92, [Named a_err_scim_other]) (* 437 *);
   (93, [Named a_err_hex; Named a_err_scim_other]) (* 440 *);
   (94, [Named a_err_pre]) (* 441 *)].

(* docs/urn.dot:450-540: the edges EOF *)
Definition dot_eofs : list (N * list dact) :=
  [(1, [Named a_err_pre; ErrParse]) (* 450 *);
   (2, [Named a_err_pre; ErrParse]) (* 451 *);
   (3, [Named a_err_pre; ErrParse]) (* 452 *);
   (4, [Named a_err_pre; ErrParse]) (* 453 *);
   (5, [Named a_err_nid; Named a_err_pre; ErrParse]) (* 454 *);
   (6, [Named a_err_nid; ErrParse]) (* 455 *);
   (7, [Named a_err_nid; ErrParse]) (* 456 *);
   (8, [Named a_err_nid; ErrParse]) (* 457 *);
   (9, [Named a_err_nid; ErrParse]) (* 458 *);
   (10, [Named a_err_nid; ErrParse]) (* 459 *);
   (11, [Named a_err_nid; ErrParse]) (* 460 *);
   (12, [Named a_err_nid; ErrParse]) (* 461 *);
   (13, [Named a_err_nid; ErrParse]) (* 462 *);
   (14, [Named a_err_nid; ErrParse]) (* 463 *);
   (15, [Named a_err_nid; ErrParse]) (* 464 *);
   (16, [Named a_err_nid; ErrParse]) (* 465 *);
   (17, [Named a_err_nid; ErrParse]) (* 466 *);
   (18, [Named a_err_nid; ErrParse]) (* 467 *);
   (19, [Named a_err_nid; ErrParse]) (* 468 *);
   (20, [Named a_err_nid; ErrParse]) (* 469 *);
   (21, [Named a_err_nid; ErrParse]) (* 470 *);
   (22, [Named a_err_nid; ErrParse]) (* 471 *);
   (23, [Named a_err_nid; ErrParse]) (* 472 *);
   (24, [Named a_err_nid; ErrParse]) (* 473 *);
   (25, [Named a_err_nid; ErrParse]) (* 474 *);
   (26, [Named a_err_nid; ErrParse]) (* 475 *);
   (27, [Named a_err_nid; ErrParse]) (* 476 *);
   (28, [Named a_err_nid; ErrParse]) (* 477 *);
   (29, [Named a_err_nid; ErrParse]) (* 478 *);
   (30, [Named a_err_nid; ErrParse]) (* 479 *);
   (31, [Named a_err_nid; ErrParse]) (* 480 *);
   (32, [Named a_err_nid; ErrParse]) (* 481 *);
   (33, [Named a_err_nid; ErrParse]) (* 482 *);
   (34, [Named a_err_nid; ErrParse]) (* 483 *);
   (35, [Named a_err_nid; ErrParse]) (* 484 *);
   (36, [Named a_err_nid; ErrParse]) (* 485 *);
   (37, [Named a_err_nid; ErrParse]) (* 486 *);
   (38, [Named a_err_nss; ErrParse]) (* 487 *);
   (39, [Named a_err_hex; Named a_err_nss; ErrParse]) (* 488 *);
   (40, [Named a_err_hex; Named a_err_nss; ErrParse]) (* 489 *);
   (41, [Named a_err_nid; Named a_err_pre; ErrParse]) (* 490 *);
   (42, [Named a_err_nid; Named a_err_pre; ErrParse]) (* 491 *);
   (43, [Named a_err_nid; Named a_err_urn; ErrParse]) (* 492 *);
   (44, [Named a_err_pre]) (* 493 *);
   (45, [Named a_err_pre]) (* 494 *);
   (46, [Named a_err_pre]) (* 495 *);
   (47, [Named a_err_pre]) (* 496 *);
   (48, [Named a_err_scim_nid]) (* 497 *);
   (49, [Named a_err_scim_nid]) (* 498 *);
   (50, [Named a_err_scim_nid]) (* 499 *);
   (51, [Named a_err_scim_nid]) (* 500 *);
   (52, [Named a_err_scim_nid]) (* 501 *);
   (53, [Named a_err_scim_nid]) (* 502 *);
   (54, [Named a_err_scim_nid]) (* 503 *);
   (55, [Named a_err_scim_nid]) (* 504 *);
   (56, [Named a_err_scim_nid]) (* 505 *);
   (57, [Named a_err_scim_nid]) (* 506 *);
   (58, [Named a_err_scim_nid]) (* 507 *);
   (59, [Named a_err_scim_nid]) (* 508 *);
   (60, [Named a_err_scim_nid]) (* 509 *);
   (61, [Named a_err_scim_nid]) (* 510 *);
   (62, [Named a_err_scim_nid]) (* 511 *);
   (63, [Named a_err_scim_nid]) (* 512 *);
   (64, [Named a_err_scim_nid]) (* 513 *);
   (65, [Named a_err_scim_type]) (* 514 *);
   (66, [Named a_err_scim_type]) (* 515 *);
   (67, [Named a_err_scim_type]) (* 516 *);
   (68, [Named a_err_scim_type]) (* 517 *);
   (69, [Named a_err_scim_name]) (* 518 *);
   (70, [Named a_err_scim_other]) (* 519 *);
   (71, [Named a_err_hex; Named a_err_scim_other]) (* 520 *);
   (72, [Named a_err_hex; Named a_err_scim_other]) (* 521 *);
   (73, [Named a_err_scim_type]) (* 522 *);
   (74, [Named a_err_scim_type]) (* 523 *);
   (75, [Named a_err_scim_type]) (* 524 *);
   (76, [Named a_err_scim_type]) (* 525 *);
   (77, [Named a_err_scim_type]) (* 526 *);
   (78, [Named a_err_scim_type]) (* 527 *);
   (79, [Named a_err_scim_type]) (* 528 *);
   (80, [Named a_err_scim_type]) (* 529 *);
   (81, [Named a_err_scim_type]) (* 530 *);
   (82, [Named a_err_scim_type]) (* 531 *);
   (83, [Named a_err_pre]) (* 532 *);
   (84, [Named a_err_pre]) (* 533 *);
   (85, [Named a_err_pre]) (* 534 *);
   (86, [Named a_err_pre]) (* 535 *);
   (88, [Named a_set_nss; Named a_base_type]) (* 536 *);
   (89, [Named a_set_nss; Named a_base_type]) (* 537 *);
   (91, [Named a_set_scim_name; Named a_set_nss; Named a_scim_type]) (* 538 *);
   (92, [Named a_set_scim_other; Named a_set_nss; Named a_scim_type]) (* 539 *);
   (93, [Named a_set_scim_other; Named a_set_nss; Named a_scim_type]) (* 540 *)].

(* docs/urn.dot: the double circles *)
Definition dot_finals : list N := [87; 88; 89; 90; 91; 92; 93; 94; 95].

(* docs/urn.dot:444-449: the entry points *)
Definition dot_entries : list (string * N) :=
  [("urn"%string, 5) (* 444 *);
   ("urn_only"%string, 44) (* 445 *);
   ("scim"%string, 48) (* 446 *);
   ("scim_only"%string, 83) (* 447 *);
   ("fail"%string, 95) (* 448 *);
   ("main"%string, 1) (* 449 *)].

(* the states are 1 to this *)
Definition dot_last : N := 95.
