[
[
1,
"URN:0:%"
],
[
1,
"URN:0:%\u0000"
],
[
83,
"URN:00:!#%\u0000"
],
[
83,
"URN:00:!?+!?=%"
],
[
83,
"URN:00:!?+!?=%$"
],
[
83,
"URN:00:!?+%"
],
[
83,
"URN:00:!?+%\n"
],
[
83,
"URN:00:!?=%"
],
[
83,
"URN:00:!?=%!"
],
[
83,
"URN:00:%"
],
[
83,
"URN:00:%\u0000"
],
[
83,
"URN:UR:!#%"
]
]