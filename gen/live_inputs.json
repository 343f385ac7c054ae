[
[
1,
"URN:0-------------------------------:%A!"
],
[
3,
"URN:0------------------------------0:!#&"
],
[
2,
"URN:ietf:params:scim:api:0:%00!%F\n"
],
[
3,
"URN:00:!?+!?=!#%00!%A"
],
[
3,
"URN:URN-1000"
],
[
3,
"URN:00:!?=%00?=/%"
],
[
2,
"URN:ietf:params:scim:schemas:00"
],
[
3,
"URN:00:!?+%00?+/%"
],
[
1,
"URN:URN-:!%"
],
[
3,
"URN:00:%00!%A"
],
[
2,
"URN:ietf:params:scim:param:1:"
],
[
3,
"URN:0--------------------------000u\n"
],
[
3,
"URN:0-------00001"
],
[
3,
"URN:0------------0000:"
],
[
3,
"URN:0----------------0000F"
],
[
3,
"URN:0---------------------00001"
],
[
3,
"URN:00:!?+!?=%0A\u0000"
],
[
3,
"URN:0-00:%\n"
],
[
1,
"URN:0:%00!%0N"
],
[
3,
"URN:00:!?+?+!"
],
[
3,
"URN:00:!?=?=!"
],
[
2,
"URN:ietf:params:scim:api:0:!%0F%"
],
[
3,
"URN:00:!?+!#%0A\u0000"
],
[
3,
"URN:00:!?+%A\u0000"
],
[
3,
"URN:00:!?+!?=%A"
],
[
3,
"URN:0------0:%0A"
],
[
3,
"URN:00:!?+?+"
],
[
3,
"URN:00:!?=?="
],
[
3,
"URN:00:!?+%0A"
],
[
3,
"URN:00:!?+?+#"
],
[
3,
"URN:00:!?=%AA"
],
[
3,
"URN:00:!?=?=#"
],
[
3,
"URN:00:!?+!?=%\u0000"
],
[
3,
"URN:0-----------0:\u0000"
],
[
2,
"URN:ietf:params:scim:api:0:\u0000"
],
[
3,
"URN:0--------------------0:!#"
],
[
3,
"URN:0-------------------------0:!?+"
],
[
1,
""
],
[
1,
"\u0000"
],
[
1,
"URN:"
],
[
2,
"URN:"
],
[
3,
"URN:"
],
[
1,
"URN:\u0000"
],
[
1,
"URN:0"
],
[
2,
"URN:\u0000"
],
[
3,
"URN:\u0000"
],
[
1,
"URN:0\u0000"
],
[
1,
"URN:0:"
],
[
1,
"URN:0:\u0000"
],
[
1,
"URN:URN"
],
[
1,
"URN:URN\u0000"
],
[
3,
"URN:URN-0"
],
[
3,
"URN:00:!?="
],
[
3,
"URN:00:!?+\u0000"
],
[
3,
"URN:00:!?=\u0000"
],
[
3,
"URN:00:!?+!?=\u0000"
],
[
2,
"URN:ietf:params:scim:"
],
[
2,
"URN:ietf:params:scim:\u0000"
],
[
2,
"URN:ietf:params:scim:api:"
],
[
2,
"URN:ietf:params:scim:api:\u0000"
],
[
2,
"URN:ietf:params:scim:api:0:!"
],
[
2,
""
],
[
3,
""
],
[
1,
"U"
],
[
2,
"U"
],
[
3,
"U"
],
[
1,
"UR"
],
[
2,
"UR"
],
[
3,
"UR"
],
[
1,
"URN"
],
[
2,
"URN"
],
[
3,
"URN"
],
[
1,
"URN:U"
],
[
2,
"URN:i"
],
[
3,
"URN:0"
],
[
3,
"URN:U"
],
[
1,
"URN:0-"
],
[
1,
"URN:UR"
],
[
2,
"URN:ie"
],
[
3,
"URN:0-"
],
[
3,
"URN:00"
],
[
3,
"URN:UR"
],
[
1,
"URN:0--"
],
[
1,
"URN:0:!"
],
[
2,
"URN:iet"
],
[
3,
"URN:0--"
],
[
3,
"URN:0-0"
],
[
3,
"URN:URN"
],
[
1,
"URN:0---"
],
[
1,
"URN:0:%0"
],
[
1,
"URN:U-\u0000:"
],
[
2,
"URN:ietf"
],
[
3,
"URN:0---"
],
[
3,
"URN:0--0"
],
[
3,
"URN:00:!"
],
[
3,
"URN:00:%"
],
[
3,
"URN:URN-"
],
[
1,
"URN:0----"
],
[
2,
"URN:ietf:"
],
[
3,
"URN:0----"
],
[
3,
"URN:0---0"
],
[
3,
"URN:00:!?"
],
[
1,
"URN:0-----"
],
[
2,
"URN:ietf:p"
],
[
3,
"URN:0-----"
],
[
3,
"URN:0----0"
],
[
3,
"URN:00:!#%"
],
[
1,
"URN:0------"
],
[
2,
"URN:ietf:pa"
],
[
3,
"URN:0------"
],
[
3,
"URN:0-----0"
],
[
3,
"URN:00:!?+!"
],
[
3,
"URN:00:!?+?"
],
[
3,
"URN:00:!?=!"
],
[
3,
"URN:00:!?=?"
],
[
1,
"URN:0-------"
],
[
2,
"URN:ietf:par"
],
[
3,
"URN:0-------"
],
[
3,
"URN:00:!#%00"
],
[
3,
"URN:00:!?+!?"
],
[
3,
"URN:00:!?+%0"
],
[
3,
"URN:00:!?=!?"
],
[
3,
"URN:00:!?=%0"
],
[
1,
"URN:0--------"
],
[
2,
"URN:ietf:para"
],
[
3,
"URN:0--------"
],
[
3,
"URN:0-------0"
],
[
3,
"URN:00:!?+!?+"
],
[
3,
"URN:00:!?+!?="
],
[
3,
"URN:00:!?+?+%"
],
[
3,
"URN:00:!?+?+?"
],
[
3,
"URN:00:!?=!?="
],
[
3,
"URN:00:!?=?=%"
],
[
3,
"URN:00:!?=?=?"
],
[
1,
"URN:0---------"
],
[
2,
"URN:ietf:param"
],
[
3,
"URN:0---------"
],
[
3,
"URN:0--------0"
],
[
3,
"URN:00:!?+!?+?"
],
[
3,
"URN:00:!?+!?=%"
],
[
3,
"URN:00:!?=!?=?"
],
[
1,
"URN:0----------"
],
[
2,
"URN:ietf:params"
],
[
3,
"URN:0----------"
],
[
3,
"URN:0---------0"
],
[
1,
"URN:0-----------"
],
[
2,
"URN:ietf:params:"
],
[
3,
"URN:0-----------"
],
[
3,
"URN:0----------0"
],
[
1,
"URN:0------------"
],
[
2,
"URN:ietf:params:s"
],
[
3,
"URN:0------------"
],
[
1,
"URN:0-------------"
],
[
2,
"URN:ietf:params:sc"
],
[
3,
"URN:0-------------"
],
[
3,
"URN:0------------0"
],
[
1,
"URN:0--------------"
],
[
2,
"URN:ietf:params:sci"
],
[
3,
"URN:0--------------"
],
[
3,
"URN:0-------------0"
],
[
1,
"URN:0---------------"
],
[
2,
"URN:ietf:params:scim"
],
[
3,
"URN:0---------------"
],
[
3,
"URN:0--------------0"
],
[
1,
"URN:0----------------"
],
[
3,
"URN:0----------------"
],
[
3,
"URN:0---------------0"
],
[
1,
"URN:0-----------------"
],
[
2,
"URN:ietf:params:scim:a"
],
[
2,
"URN:ietf:params:scim:p"
],
[
2,
"URN:ietf:params:scim:s"
],
[
3,
"URN:0-----------------"
],
[
3,
"URN:0----------------0"
],
[
1,
"URN:0------------------"
],
[
2,
"URN:ietf:params:scim:ap"
],
[
2,
"URN:ietf:params:scim:pa"
],
[
2,
"URN:ietf:params:scim:sc"
],
[
3,
"URN:0------------------"
],
[
3,
"URN:0-----------------0"
],
[
1,
"URN:0-------------------"
],
[
2,
"URN:ietf:params:scim:api"
],
[
2,
"URN:ietf:params:scim:par"
],
[
2,
"URN:ietf:params:scim:sch"
],
[
3,
"URN:0-------------------"
],
[
3,
"URN:0------------------0"
],
[
1,
"URN:0--------------------"
],
[
2,
"URN:ietf:params:scim:para"
],
[
2,
"URN:ietf:params:scim:sche"
],
[
3,
"URN:0--------------------"
],
[
3,
"URN:0-------------------0"
],
[
1,
"URN:0---------------------"
],
[
2,
"URN:ietf:params:scim:schem"
],
[
3,
"URN:0---------------------"
],
[
1,
"URN:0----------------------"
],
[
2,
"URN:ietf:params:scim:schema"
],
[
3,
"URN:0----------------------"
],
[
3,
"URN:0---------------------0"
],
[
1,
"URN:0-----------------------"
],
[
3,
"URN:0-----------------------"
],
[
3,
"URN:0----------------------0"
],
[
1,
"URN:0------------------------"
],
[
2,
"URN:ietf:params:scim:api:0:%0"
],
[
3,
"URN:0------------------------"
],
[
3,
"URN:0-----------------------0"
],
[
1,
"URN:0-------------------------"
],
[
2,
"URN:ietf:params:scim:api:0:%00"
],
[
3,
"URN:0-------------------------"
],
[
3,
"URN:0------------------------0"
],
[
1,
"URN:0--------------------------"
],
[
3,
"URN:0--------------------------"
],
[
1,
"URN:0---------------------------"
],
[
3,
"URN:0---------------------------"
],
[
3,
"URN:0--------------------------0"
],
[
1,
"URN:0----------------------------"
],
[
3,
"URN:0----------------------------"
],
[
3,
"URN:0---------------------------0"
],
[
1,
"URN:0-----------------------------"
],
[
3,
"URN:0-----------------------------"
],
[
3,
"URN:0----------------------------0"
],
[
1,
"URN:0------------------------------"
],
[
3,
"URN:0------------------------------"
],
[
3,
"URN:0-----------------------------0"
],
[
1,
"URN:0-------------------------------"
],
[
3,
"URN:0------------------------------0"
]
]