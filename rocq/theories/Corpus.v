(** Files of the repository, copied verbatim (generated by a script from /repo): the inputs and
    expected outputs of Conformance.v. *)
From Verif Require Import Base.
Open Scope string_scope.

(** schema/ridl/_example/example0.ridl *)
Definition f_example0 : string := "webrpc = v1

name = hello-webrpc
version = v0.0.1

# this is a comment
# yep
enum Kind: uint32
  - USER = 1             # comment
  - ADMIN = 2            # comment..

# or.. just..
enum Kind2: uint32
  - USER                 # aka, = 0
  - ADMIN                # aka, = 1


struct Empty


struct GetUserRequest
  - userID: uint64


struct Role
  - name: string

  - users: map<uint64,User>

  - perms: []string # comment

  - other: map<uint64,map<string,string>> # comment


struct User
  - ID: uint64
    + json = id
    + go.tag.db = id

  - username: string
    + json = USERNAME
    + go.tag.db = username

  - role: string
    + go.tag.db = -

  - createdAt?: timestamp
    + json = created_at
    + go.tag.json = created_at,omitempty
    + go.tag.db = created_at
    

struct Notice
  - msg: string


service ExampleService

  # comment can go here
  # too .. :)
  - Ping() => (status: bool)

  - GetUser(req: GetUserRequest) => (user: User)

  - stream Recv(req: string)

  - stream Send() => (resp: string)

  - stream SendAndRecv(req: string) => stream (resp: string)

  - Broadcast() => stream (resp: Notice)

  -	VerifyUsers(seq: int32, header?: map<string,[]string>, ids: []uint64) => (code: bool, ids: []bool)
	
  - MoreTest(n: uint64, stuff: []map<uint64,string>, etc: string) => (code?: bool)
".

(** schema/ridl/_example/example1.ridl *)
Definition f_example1 : string := "webrpc = v1

name = hello-webrpc
version = v0.0.1


import
  - ./example1-definitions.ridl

import example1-partials.ridl
  - Empty
  - GetUserRequest


struct Role
  - name: string

  - users: map<uint64,User>

  - perms: []string # comment

  - other: map<uint64,map<string,string>> # comment


struct User
  - ID: uint64
    + json = id
    + go.tag.db = id

  - username: string
    + json = USERNAME
    + go.tag.db = username

  - amount: bigint

  - role: string
    + go.tag.db = -

  - createdAt?: timestamp
    + json = created_at
    + go.tag.json = created_at,omitempty
    + go.tag.db = created_at
    

struct Notice
  - msg: string


service ExampleService

  # comment can go here
  # too .. :)
  - Ping() => (status: bool)

  - GetUser(req: GetUserRequest) => (user: User)

  - stream Recv(req: string)

  - stream Send() => (resp: string)

  - stream SendAndRecv(req: string) => stream (resp: string)

  - Broadcast() => stream (resp: Notice)

  -	VerifyUsers(seq: int32, header?: map<string,[]string>, ids: []uint64) => (code: bool, ids: []bool)
	
  - MoreTest(n: uint64, stuff: []map<uint64,string>, etc: string) => (code?: bool)


struct FlattenRequest
  - name: string
    + go.tag.db = name
  - amount?: uint64
    + go.tag.db = amount

struct FlattenResponse
  - id: uint64
    + go.field.name = ID
  - count: uint64
    + json = counter

service Another
  - Flatten(FlattenRequest) => (FlattenResponse)
  - GetAccountBalance(name: string) => (balance: uint64) errors UserNotFoundError | UnauthorizedError

error 1000 UserNotFoundError ""User not found"" HTTP 404
error 1001 UnauthorizedError ""Unauthorized access"" HTTP 401  
error 1002 ValidationError ""Validation failed"" HTTP 400
".

(** schema/ridl/_example/example1-definitions.ridl *)
Definition f_example1_definitions : string := "webrpc = v1

name = hello-webrpc
version = v0.0.1

# this is a comment
# yep
enum Kind: uint32
  - USER = 1             # comment
  - ADMIN = 2            # comment..

# or.. just..
enum Kind2: uint32
  - USER                 # aka, = 0
  - ADMIN                # aka, = 1

service PingerService

  # comment can go here
  # too .. :)
  - Ping() => (status: bool)
".

(** schema/ridl/_example/example1-partials.ridl *)
Definition f_example1_partials : string := "webrpc = v1

name = hello-webrpc
version = v0.0.1
basepath = /rpc

#import
#  - lib/types.ridl

# this is a comment
# yep
enum Kind: uint32
  - USER = 1             # comment
  - ADMIN = 2            # comment..

# or.. just..
enum Kind2: uint32
  - USER                 # aka, = 0
  - ADMIN                # aka, = 1


struct Empty


struct GetUserRequest
  - userID: uint64


struct Role
  - name: string

  - users: map<uint64,User>

  - perms: []string # comment

  - other: map<uint64,map<string,string>> # comment


struct User
  - ID: uint64
    + json = id
    + go.tag.db = id

  - username: string
    + json = USERNAME
    + go.tag.db = username

  - role: string
    + go.tag.db = -

  - createdAt?: timestamp
    + json = created_at
    + go.tag.json = created_at,omitempty
    + go.tag.db = created_at
    

struct Notice
  - msg: string


service ExampleService

  # comment can go here
  # too .. :)
  - Ping() => (status: bool)

  - GetUser(req: GetUserRequest) => (user: User)

  - stream Recv(req: string)

  - stream Send() => (resp: string)

  - stream SendAndRecv(req: string) => stream (resp: string)

  - Broadcast() => stream (resp: Notice)

  -	VerifyUsers(seq: int32, header?: map<string,[]string>, ids: []uint64) => (code: bool, ids: []bool)
	
  - MoreTest(n: uint64, stuff: []map<uint64,string>, etc: string) => (code?: bool)
".

(** schema/ridl/_example/example2.ridl *)
Definition f_example2 : string := "webrpc = v1

name = hello-webrpc
version = v0.0.1
basepath = /rpc

service ExampleService

  # comment can go here
  # too .. :)
  - Ping() => (status: bool)

  - GetUser(req: GetUserRequest) => (user: User)

  - stream Recv(req: string)

  - stream Send() => (resp: string)

  - stream SendAndRecv(req: string) => stream (resp: string)

  - Broadcast() => stream (resp: Notice)

  - VerifyUsers(seq: int32, header?: map<string,[]string>, ids: []uint64) => (code: bool, ids: []bool)

  - MoreTest(n: uint64, stuff: []map<uint64,string>, etc: string) => (code?: bool)

### Types
  
import ./lib/errors.ridl

import example1-partials.ridl
  - Empty
  - GetUserRequest

struct Role
  - name: string

  - users: map<uint64,User>

  - perms: []string # comment

  - other: map<uint64,map<string,string>> # comment

struct User
  - ID: uint64
    + json = id
    + go.tag.db = id

  - username: string
    + json = USERNAME
    + go.tag.db = username

  - role: string
    + go.tag.db = -

  - createdAt?: timestamp
    + json = created_at
    + go.tag.json = created_at,omitempty
    + go.tag.db = created_at

struct Notice
  - msg: string".

(** schema/ridl/_example/lib/errors.ridl *)
Definition f_lib_errors : string := "webrpc = v1
name = errors
version = v0.1

error 1000 Unauthorized     ""Unauthorized access""             HTTP 401
error 1001 PermissionDenied ""Permission denied""               HTTP 403
error 1002 SessionExpired   ""Session expired""                 HTTP 403
error 1003 MethodNotFound   ""Method not found""                HTTP 404
error 1004 RequestConflict  ""Conflict with target resource""   HTTP 409
error 1005 Aborted          ""Request aborted""                 HTTP 400
error 1006 Geoblocked       ""Geoblocked region""               HTTP 451
error 1007 RateLimited      ""Rate-limited. Please slow down."" HTTP 429
error 1008 ProjectNotFound  ""Project not found""               HTTP 401

".

(** schema/ridl/_example/lib/structs.ridl *)
Definition f_lib_structs : string := "webrpc = v1
name = structs
version = v0.1

import
  - ../example1-partials.ridl

struct StructA
  - name: string
  - last_name: string

struct StructB
  - foo: string
  - bar: string
".

(** schema/ridl/_example/lib/types.ridl *)
Definition f_lib_types : string := "webrpc = v1
name = types
version = v0.1

import
  - structs.ridl

enum TypeA: uint32
  - FOO = 1
  - BAR = 2
".

(** schema/ridl/_example/example1-golden.json *)
Definition golden1 : string := "{
 ""webrpc"": ""v1"",
 ""name"": ""hello-webrpc"",
 ""version"": ""v0.0.1"",
 ""basepath"": """",
 ""types"": [
  {
   ""kind"": ""enum"",
   ""name"": ""Kind"",
   ""type"": ""uint32"",
   ""fields"": [
    {
     ""comments"": [
      ""comment""
     ],
     ""name"": ""USER"",
     ""value"": ""1""
    },
    {
     ""comments"": [
      ""comment..""
     ],
     ""name"": ""ADMIN"",
     ""value"": ""2""
    }
   ]
  },
  {
   ""kind"": ""enum"",
   ""name"": ""Kind2"",
   ""type"": ""uint32"",
   ""fields"": [
    {
     ""comments"": [
      ""aka, = 0""
     ],
     ""name"": ""USER"",
     ""value"": ""0""
    },
    {
     ""comments"": [
      ""aka, = 1""
     ],
     ""name"": ""ADMIN"",
     ""value"": ""1""
    }
   ]
  },
  {
   ""kind"": ""struct"",
   ""name"": ""Empty""
  },
  {
   ""kind"": ""struct"",
   ""name"": ""GetUserRequest"",
   ""fields"": [
    {
     ""name"": ""userID"",
     ""type"": ""uint64""
    }
   ]
  },
  {
   ""kind"": ""struct"",
   ""name"": ""Role"",
   ""fields"": [
    {
     ""name"": ""name"",
     ""type"": ""string""
    },
    {
     ""name"": ""users"",
     ""type"": ""map<uint64,User>""
    },
    {
     ""comments"": [
      ""comment""
     ],
     ""name"": ""perms"",
     ""type"": ""[]string""
    },
    {
     ""comments"": [
      ""comment""
     ],
     ""name"": ""other"",
     ""type"": ""map<uint64,map<string,string>>""
    }
   ]
  },
  {
   ""kind"": ""struct"",
   ""name"": ""User"",
   ""fields"": [
    {
     ""name"": ""ID"",
     ""type"": ""uint64"",
     ""meta"": [
      {
       ""json"": ""id""
      },
      {
       ""go.tag.db"": ""id""
      }
     ]
    },
    {
     ""name"": ""username"",
     ""type"": ""string"",
     ""meta"": [
      {
       ""json"": ""USERNAME""
      },
      {
       ""go.tag.db"": ""username""
      }
     ]
    },
    {
     ""name"": ""amount"",
     ""type"": ""bigint""
    },
    {
     ""name"": ""role"",
     ""type"": ""string"",
     ""meta"": [
      {
       ""go.tag.db"": ""-""
      }
     ]
    },
    {
     ""name"": ""createdAt"",
     ""type"": ""timestamp"",
     ""optional"": true,
     ""meta"": [
      {
       ""json"": ""created_at""
      },
      {
       ""go.tag.json"": ""created_at,omitempty""
      },
      {
       ""go.tag.db"": ""created_at""
      }
     ]
    }
   ]
  },
  {
   ""kind"": ""struct"",
   ""name"": ""Notice"",
   ""fields"": [
    {
     ""name"": ""msg"",
     ""type"": ""string""
    }
   ]
  },
  {
   ""kind"": ""struct"",
   ""name"": ""FlattenRequest"",
   ""fields"": [
    {
     ""name"": ""name"",
     ""type"": ""string"",
     ""meta"": [
      {
       ""go.tag.db"": ""name""
      }
     ]
    },
    {
     ""name"": ""amount"",
     ""type"": ""uint64"",
     ""optional"": true,
     ""meta"": [
      {
       ""go.tag.db"": ""amount""
      }
     ]
    }
   ]
  },
  {
   ""kind"": ""struct"",
   ""name"": ""FlattenResponse"",
   ""fields"": [
    {
     ""name"": ""id"",
     ""type"": ""uint64"",
     ""meta"": [
      {
       ""go.field.name"": ""ID""
      }
     ]
    },
    {
     ""name"": ""count"",
     ""type"": ""uint64"",
     ""meta"": [
      {
       ""json"": ""counter""
      }
     ]
    }
   ]
  }
 ],
 ""errors"": [
  {
   ""code"": 1000,
   ""name"": ""UserNotFoundError"",
   ""message"": ""User not found"",
   ""httpStatus"": 404
  },
  {
   ""code"": 1001,
   ""name"": ""UnauthorizedError"",
   ""message"": ""Unauthorized access"",
   ""httpStatus"": 401
  },
  {
   ""code"": 1002,
   ""name"": ""ValidationError"",
   ""message"": ""Validation failed"",
   ""httpStatus"": 400
  }
 ],
 ""services"": [
  {
   ""name"": ""PingerService"",
   ""methods"": [
    {
     ""name"": ""Ping"",
     ""annotations"": {},
     ""comments"": [
      ""comment can go here"",
      ""too .. :)""
     ],
     ""inputs"": [],
     ""outputs"": [
      {
       ""name"": ""status"",
       ""type"": ""bool"",
       ""optional"": false
      }
     ]
    }
   ],
   ""comments"": []
  },
  {
   ""name"": ""ExampleService"",
   ""methods"": [
    {
     ""name"": ""Ping"",
     ""annotations"": {},
     ""comments"": [
      ""comment can go here"",
      ""too .. :)""
     ],
     ""inputs"": [],
     ""outputs"": [
      {
       ""name"": ""status"",
       ""type"": ""bool"",
       ""optional"": false
      }
     ]
    },
    {
     ""name"": ""GetUser"",
     ""annotations"": {},
     ""comments"": [],
     ""inputs"": [
      {
       ""name"": ""req"",
       ""type"": ""GetUserRequest"",
       ""optional"": false
      }
     ],
     ""outputs"": [
      {
       ""name"": ""user"",
       ""type"": ""User"",
       ""optional"": false
      }
     ]
    },
    {
     ""name"": ""Recv"",
     ""annotations"": {},
     ""comments"": [],
     ""streamInput"": true,
     ""inputs"": [
      {
       ""name"": ""req"",
       ""type"": ""string"",
       ""optional"": false
      }
     ],
     ""outputs"": []
    },
    {
     ""name"": ""Send"",
     ""annotations"": {},
     ""comments"": [],
     ""streamInput"": true,
     ""inputs"": [],
     ""outputs"": [
      {
       ""name"": ""resp"",
       ""type"": ""string"",
       ""optional"": false
      }
     ]
    },
    {
     ""name"": ""SendAndRecv"",
     ""annotations"": {},
     ""comments"": [],
     ""streamInput"": true,
     ""streamOutput"": true,
     ""inputs"": [
      {
       ""name"": ""req"",
       ""type"": ""string"",
       ""optional"": false
      }
     ],
     ""outputs"": [
      {
       ""name"": ""resp"",
       ""type"": ""string"",
       ""optional"": false
      }
     ]
    },
    {
     ""name"": ""Broadcast"",
     ""annotations"": {},
     ""comments"": [],
     ""streamOutput"": true,
     ""inputs"": [],
     ""outputs"": [
      {
       ""name"": ""resp"",
       ""type"": ""Notice"",
       ""optional"": false
      }
     ]
    },
    {
     ""name"": ""VerifyUsers"",
     ""annotations"": {},
     ""comments"": [],
     ""inputs"": [
      {
       ""name"": ""seq"",
       ""type"": ""int32"",
       ""optional"": false
      },
      {
       ""name"": ""header"",
       ""type"": ""map<string,[]string>"",
       ""optional"": true
      },
      {
       ""name"": ""ids"",
       ""type"": ""[]uint64"",
       ""optional"": false
      }
     ],
     ""outputs"": [
      {
       ""name"": ""code"",
       ""type"": ""bool"",
       ""optional"": false
      },
      {
       ""name"": ""ids"",
       ""type"": ""[]bool"",
       ""optional"": false
      }
     ]
    },
    {
     ""name"": ""MoreTest"",
     ""annotations"": {},
     ""comments"": [],
     ""inputs"": [
      {
       ""name"": ""n"",
       ""type"": ""uint64"",
       ""optional"": false
      },
      {
       ""name"": ""stuff"",
       ""type"": ""[]map<uint64,string>"",
       ""optional"": false
      },
      {
       ""name"": ""etc"",
       ""type"": ""string"",
       ""optional"": false
      }
     ],
     ""outputs"": [
      {
       ""name"": ""code"",
       ""type"": ""bool"",
       ""optional"": true
      }
     ]
    }
   ],
   ""comments"": []
  },
  {
   ""name"": ""Another"",
   ""methods"": [
    {
     ""name"": ""Flatten"",
     ""annotations"": {},
     ""comments"": [],
     ""succinct"": true,
     ""inputs"": [
      {
       ""name"": ""flattenRequest"",
       ""type"": ""FlattenRequest"",
       ""optional"": false
      }
     ],
     ""outputs"": [
      {
       ""name"": ""flattenResponse"",
       ""type"": ""FlattenResponse"",
       ""optional"": false
      }
     ]
    },
    {
     ""name"": ""GetAccountBalance"",
     ""annotations"": {},
     ""comments"": [],
     ""inputs"": [
      {
       ""name"": ""name"",
       ""type"": ""string"",
       ""optional"": false
      }
     ],
     ""outputs"": [
      {
       ""name"": ""balance"",
       ""type"": ""uint64"",
       ""optional"": false
      }
     ],
     ""errors"": [
      ""UserNotFoundError"",
      ""UnauthorizedError""
     ]
    }
   ],
   ""comments"": []
  }
 ]
}
".

(** schema/ridl/_example/example2-golden.json *)
Definition golden2 : string := "{
 ""webrpc"": ""v1"",
 ""name"": ""hello-webrpc"",
 ""version"": ""v0.0.1"",
 ""basepath"": ""/rpc/"",
 ""types"": [
  {
   ""kind"": ""struct"",
   ""name"": ""Empty""
  },
  {
   ""kind"": ""struct"",
   ""name"": ""GetUserRequest"",
   ""fields"": [
    {
     ""name"": ""userID"",
     ""type"": ""uint64""
    }
   ]
  },
  {
   ""kind"": ""struct"",
   ""name"": ""Role"",
   ""fields"": [
    {
     ""name"": ""name"",
     ""type"": ""string""
    },
    {
     ""name"": ""users"",
     ""type"": ""map<uint64,User>""
    },
    {
     ""comments"": [
      ""comment""
     ],
     ""name"": ""perms"",
     ""type"": ""[]string""
    },
    {
     ""comments"": [
      ""comment""
     ],
     ""name"": ""other"",
     ""type"": ""map<uint64,map<string,string>>""
    }
   ]
  },
  {
   ""kind"": ""struct"",
   ""name"": ""User"",
   ""fields"": [
    {
     ""name"": ""ID"",
     ""type"": ""uint64"",
     ""meta"": [
      {
       ""json"": ""id""
      },
      {
       ""go.tag.db"": ""id""
      }
     ]
    },
    {
     ""name"": ""username"",
     ""type"": ""string"",
     ""meta"": [
      {
       ""json"": ""USERNAME""
      },
      {
       ""go.tag.db"": ""username""
      }
     ]
    },
    {
     ""name"": ""role"",
     ""type"": ""string"",
     ""meta"": [
      {
       ""go.tag.db"": ""-""
      }
     ]
    },
    {
     ""name"": ""createdAt"",
     ""type"": ""timestamp"",
     ""optional"": true,
     ""meta"": [
      {
       ""json"": ""created_at""
      },
      {
       ""go.tag.json"": ""created_at,omitempty""
      },
      {
       ""go.tag.db"": ""created_at""
      }
     ]
    }
   ]
  },
  {
   ""kind"": ""struct"",
   ""name"": ""Notice"",
   ""fields"": [
    {
     ""name"": ""msg"",
     ""type"": ""string""
    }
   ]
  }
 ],
 ""errors"": [
  {
   ""code"": 1000,
   ""name"": ""Unauthorized"",
   ""message"": ""Unauthorized access"",
   ""httpStatus"": 401
  },
  {
   ""code"": 1001,
   ""name"": ""PermissionDenied"",
   ""message"": ""Permission denied"",
   ""httpStatus"": 403
  },
  {
   ""code"": 1002,
   ""name"": ""SessionExpired"",
   ""message"": ""Session expired"",
   ""httpStatus"": 403
  },
  {
   ""code"": 1003,
   ""name"": ""MethodNotFound"",
   ""message"": ""Method not found"",
   ""httpStatus"": 404
  },
  {
   ""code"": 1004,
   ""name"": ""RequestConflict"",
   ""message"": ""Conflict with target resource"",
   ""httpStatus"": 409
  },
  {
   ""code"": 1005,
   ""name"": ""Aborted"",
   ""message"": ""Request aborted"",
   ""httpStatus"": 400
  },
  {
   ""code"": 1006,
   ""name"": ""Geoblocked"",
   ""message"": ""Geoblocked region"",
   ""httpStatus"": 451
  },
  {
   ""code"": 1007,
   ""name"": ""RateLimited"",
   ""message"": ""Rate-limited. Please slow down."",
   ""httpStatus"": 429
  },
  {
   ""code"": 1008,
   ""name"": ""ProjectNotFound"",
   ""message"": ""Project not found"",
   ""httpStatus"": 401
  }
 ],
 ""services"": [
  {
   ""name"": ""ExampleService"",
   ""methods"": [
    {
     ""name"": ""Ping"",
     ""annotations"": {},
     ""comments"": [
      ""comment can go here"",
      ""too .. :)""
     ],
     ""inputs"": [],
     ""outputs"": [
      {
       ""name"": ""status"",
       ""type"": ""bool"",
       ""optional"": false
      }
     ]
    },
    {
     ""name"": ""GetUser"",
     ""annotations"": {},
     ""comments"": [],
     ""inputs"": [
      {
       ""name"": ""req"",
       ""type"": ""GetUserRequest"",
       ""optional"": false
      }
     ],
     ""outputs"": [
      {
       ""name"": ""user"",
       ""type"": ""User"",
       ""optional"": false
      }
     ]
    },
    {
     ""name"": ""Recv"",
     ""annotations"": {},
     ""comments"": [],
     ""streamInput"": true,
     ""inputs"": [
      {
       ""name"": ""req"",
       ""type"": ""string"",
       ""optional"": false
      }
     ],
     ""outputs"": []
    },
    {
     ""name"": ""Send"",
     ""annotations"": {},
     ""comments"": [],
     ""streamInput"": true,
     ""inputs"": [],
     ""outputs"": [
      {
       ""name"": ""resp"",
       ""type"": ""string"",
       ""optional"": false
      }
     ]
    },
    {
     ""name"": ""SendAndRecv"",
     ""annotations"": {},
     ""comments"": [],
     ""streamInput"": true,
     ""streamOutput"": true,
     ""inputs"": [
      {
       ""name"": ""req"",
       ""type"": ""string"",
       ""optional"": false
      }
     ],
     ""outputs"": [
      {
       ""name"": ""resp"",
       ""type"": ""string"",
       ""optional"": false
      }
     ]
    },
    {
     ""name"": ""Broadcast"",
     ""annotations"": {},
     ""comments"": [],
     ""streamOutput"": true,
     ""inputs"": [],
     ""outputs"": [
      {
       ""name"": ""resp"",
       ""type"": ""Notice"",
       ""optional"": false
      }
     ]
    },
    {
     ""name"": ""VerifyUsers"",
     ""annotations"": {},
     ""comments"": [],
     ""inputs"": [
      {
       ""name"": ""seq"",
       ""type"": ""int32"",
       ""optional"": false
      },
      {
       ""name"": ""header"",
       ""type"": ""map<string,[]string>"",
       ""optional"": true
      },
      {
       ""name"": ""ids"",
       ""type"": ""[]uint64"",
       ""optional"": false
      }
     ],
     ""outputs"": [
      {
       ""name"": ""code"",
       ""type"": ""bool"",
       ""optional"": false
      },
      {
       ""name"": ""ids"",
       ""type"": ""[]bool"",
       ""optional"": false
      }
     ]
    },
    {
     ""name"": ""MoreTest"",
     ""annotations"": {},
     ""comments"": [],
     ""inputs"": [
      {
       ""name"": ""n"",
       ""type"": ""uint64"",
       ""optional"": false
      },
      {
       ""name"": ""stuff"",
       ""type"": ""[]map<uint64,string>"",
       ""optional"": false
      },
      {
       ""name"": ""etc"",
       ""type"": ""string"",
       ""optional"": false
      }
     ],
     ""outputs"": [
      {
       ""name"": ""code"",
       ""type"": ""bool"",
       ""optional"": true
      }
     ]
    }
   ],
   ""comments"": []
  }
 ]
}
".

(** tests/schema/test.ridl *)
Definition f_test : string := "webrpc = v1

name = Test
version = v1.0.0
basepath = /rpc

service TestApi
  - GetEmpty()
  - GetError()
  
  - GetOne() => (one: Simple)
  - SendOne(one: Simple)

  - GetMulti() => (one: Simple, two: Simple, three: Simple)
  - SendMulti(one: Simple, two: Simple, three: Simple)
  
  - GetComplex() => (complex: Complex)
  - SendComplex(complex: Complex)

  - GetEnumList() => (list: []Status)
  - GetEnumMap() => (map: map<Access, uint64>)

  # added in v0.11.0
  - GetSchemaError(code: int)

struct Simple
  - id: int
  - name: string

struct User
  - id: uint64
    + json = id
    + go.field.name = ID
    + go.tag.db = id

  - username: string
    + json = USERNAME
    + go.tag.db = username

  - role: string
    + go.tag.db = -

enum Status: uint32
  - AVAILABLE
  - NOT_AVAILABLE

enum Access: uint32
  - NONE
  - READ
  - WRITE
  - ADMIN
  - OWNER

struct Complex
  - meta: map<string,any>
  - metaNestedExample: map<string,map<string,uint32>>
  - namesList: []string
  - numsList: []int64
  - doubleArray: [][]string
  - listOfMaps: []map<string,uint32>
  - listOfUsers: []User
  - mapOfUsers: map<string,User>
  - user: User
  - status: Status

struct EnumData
  - dict: map<Access,uint64>
  - list: []Status

error   1 Unauthorized    ""unauthorized""        HTTP 401
error   2 ExpiredToken    ""expired token""       HTTP 401
error   3 InvalidToken    ""invalid token""       HTTP 401
error   4 Deactivated     ""account deactivated"" HTTP 403
error   5 ConfirmAccount  ""confirm your email""  HTTP 403
error   6 AccessDenied    ""access denied""       HTTP 403
error   7 MissingArgument ""missing argument""    HTTP 400
error   8 UnexpectedValue ""unexpected value""    HTTP 400
error 100 RateLimited     ""too many requests""   HTTP 429
error 101 DatabaseDown    ""service outage""      HTTP 503
error 102 ElasticDown     ""search is degraded""  HTTP 503
error 103 NotImplemented  ""not implemented""     HTTP 501
error 200 UserNotFound    ""user not found""
error 201 UserBusy        ""user busy""
error 202 InvalidUsername ""invalid username""
error 300 FileTooBig      ""file is too big (max 1GB)""
error 301 FileInfected    ""file is infected""
error 302 FileType        ""unsupported file type""
".

(** _examples/webrpc-streaming/proto/chat.ridl *)
Definition f_chat : string := "webrpc = v1

name = webrpc-sse-chat
version = v1.0.0
basepath = /v1

service Chat
  - SendMessage(username: string, text: string)
  - SubscribeMessages(username: string, lastMessageId?: uint64) => stream (message: Message)

struct Message
  - id: uint64
  - username: string
  - text: string
  - createdAt: timestamp
  
error 100 EmptyUsername ""Username must be provided."" HTTP 400
".

(** _examples/golang-imports/proto/types.ridl *)
Definition f_imp_types : string := "webrpc = v1

struct User
  - username: string
  - age: uint32
".

(** _examples/golang-imports/proto/util.ridl *)
Definition f_imp_util : string := "webrpc = v1

enum Location: uint32
  - TORONTO
  - NEW_YORK

struct Setting
  - config: map<string,string>
".

(** _examples/golang-imports/proto/api.ridl *)
Definition f_imp_api : string := "webrpc = v1

name = example-api-service
version = v1.0.0
basepath = /v1

import ./types.ridl

import ./util.ridl
  - Location

service ExampleAPI
  - Ping()
  - Status() => (status: bool)
  - GetUsers() => (users: []User, location: Location)
".

(** _examples/node-ts/service.ridl *)
Definition f_node : string := "webrpc = v1

name = node-ts
version = v1.0.0
basepath = /v1

service Example
  @deprecated:""Use /health endpoint instead.""
  - Ping(counter?: bigint) => ()

  # GetUser returns a user by ID.
  - GetUser(userId: uint64) => (code: uint32, user: User)

  # Get article by id.
  - GetArticle(GetArticleRequest) => (GetArticleResponse)

struct User
  - ID: uint64
    + json = id

  - username: string
    + json = USERNAME

  - role: Kind

  - meta: map<string,any>

  - internalId: uint64
    + json = -

  - balance: bigint

  - createdAt?: timestamp

  - extra: Extra

enum Kind: uint32
  - USER
  - ADMIN

struct Extra
  - info: string
  - amount: bigint
  - points: []bigint

struct Page
  - num: uint32

struct GetArticleRequest
  - articleId: uint32
    + go.field.name = ArticleID
  - byBN: bigint

struct GetArticleResponse
  - title: string
  - content?: string
  - largeNum: bigint

error 1000 Unauthorized     ""Unauthorized access""                                HTTP 401
error 1001 PermissionDenied ""Permission denied""                                  HTTP 403
error 1002 SessionExpired   ""Session expired""                                    HTTP 403
error 1003 Geoblocked       ""Geoblocked region""                                  HTTP 451
error 1004 RateLimited      ""Rate-limited. Please slow down.""                    HTTP 429
error 1005 CorsDisallowed   ""CORS disallowed. JWT can't be used from a web app."" HTTP 403

# TODO:
# 1. add new type, GetFriend, without any bigints
# 2. add bigint to getUser req and response inline, check code gen, etc... user max:bigint / calc:bigint".

(** _examples/hello-webrpc/hello-api.ridl *)
Definition f_hello : string := "webrpc = v1

name = hello-webrpc
version = v1.0.0
basepath = /

service Example
    @deprecated:""Use /ping endpoint instead.""
  - Ping() => (status: bool)

  # GetUser returns a user by ID.
  - GetUser(userID: uint64) => (user: User)

  # FindUsers returns a list of users matching given search query.
  - FindUsers(q: string) => (page: Page, users: []User)

error 1000 UserNotFound ""User not found"" HTTP 400 # Note: We keep HTTP 404 errors reserved for ""route not found"" errors.

struct User
  - ID: uint64
    + json = id
    + go.tag.db = id

  - username: string
    + json = USERNAME
    + go.tag.db = username

  - role: Kind

  - meta: map<string,any>

  - internalID: uint64
    + json = -

  - createdAt?: timestamp
    + json = created_at
    + go.tag.json = created_at,omitempty
    + go.tag.db = created_at

enum Kind: uint32
  - USER = 1
  - ADMIN = 2
  
struct Page
  - num: uint32
".

(** _examples/golang-basics/example.ridl *)
Definition f_basics : string := "webrpc = v1 # version of webrpc schema format (ridl or json)

name = example   # name of your backend app
version = v1.0.0 # version of your schema
basepath = /v1   # basepath for the API

service Example
    @internal
  - Ping()

    @internal
  - Status() => (status: bool)

    @internal
  - Version() => (version: Version)

    @deprecated:""Use GetUserV2 instead.""
    @internal
  - GetUser(GetUserRequest) => (GetUserResponse)

    @public
    @auth:""X-Access-Key,S2S,Cookies""
  - GetUserV2(GetUserRequest) => (GetUserResponse)

    @public
  - FindUser(s: SearchFilter) => (name: string, user: User)

    @public
  - GetIntents() => (intents: []Intent)

    @public
  - CountIntents(userId: uint64) => (count: map<Intent,uint32>)

service ExampleV2
  - Ping()
  - Status() => (status: bool)

service Admin
    @public
    @deprecated:""Use Auth instead.""
  - AuthOld() => (jwt: string)

    @public
  - Auth() => (jwt: string, role: string)

    @internal
  - Status() => (status: bool)

    @internal
  - Version() => (version: Version)


enum Kind: uint32
  - USER
  - ADMIN

enum Intent: string
  - openSession
  - closeSession
  - validateSession

enum ProtocolVersion: string
  - v1 = ""v1""
  - v1_5 = ""v1.5""

enum Country: string
  - US = ""United States""
  - CA = ""Canada""

struct Empty

# User struct
#
# More information about user struct
struct User
  - id: uint64
    + json = id
    + go.field.name = ID
    + go.tag.db = id

  - username: string
    + json = USERNAME
    + go.tag.db = username

  - role: string
    + go.tag.db = -

  - kind: Kind
    + json = kind

  - intent: Intent
    + json = intent

struct SearchFilter
  - q: string

struct Version
  - webrpcVersion: string
  - schemaVersion: string
  - schemaHash: string

struct ComplexType
  - meta: map<string,any>
  - metaNestedExample: map<string,map<string,uint32>>
  - namesList: []string
  - numsList: []int64
  - doubleArray: [][]string
  - listOfMaps: []map<string,uint32>
  - listOfUsers: []User
  - mapOfUsers: map<string,User>
  - user: User

struct GetUserRequest
  - userId: uint64
    + go.field.name = UserID
  - prefs: map<string,string>

struct GetUserResponse
  - code: uint32
  - user: User
  - profile: string

error 1000 UserNotFound     ""User not found""      HTTP 404
error 2000 Unauthorized     ""Unauthorized access"" HTTP 401
error 3000 PermissionDenied ""Permission denied""   HTTP 403
".

(** _examples/hello-webrpc/hello-api.webrpc.json *)
Definition j_hello : string := "{
	""webrpc"": ""v1"",
	""name"": ""hello-api"",
	""version"": ""v0.0.1"",
	""types"": [
		{
			""name"": ""Kind"",
			""kind"": ""enum"",
			""type"": ""uint32"",
			""fields"": [
				{
					""name"": ""USER"",
					""value"": ""1""
				},
				{
					""name"": ""ADMIN"",
					""value"": ""2""
				}
			]
		},
		{
			""name"": ""Empty"",
			""kind"": ""struct"",
			""fields"": []
		},
		{
			""name"": ""GetUserRequest"",
			""kind"": ""struct"",
			""fields"": [
				{
					""name"": ""userID"",
					""type"": ""uint64"",
					""optional"": false
				}
			]
		},
		{
			""name"": ""User"",
			""kind"": ""struct"",
			""fields"": [
				{
					""name"": ""ID"",
					""type"": ""uint64"",
					""optional"": false,
					""meta"": [
						{
							""json"": ""id""
						},
						{
							""go.tag.db"": ""id""
						}
					]
				},
				{
					""name"": ""username"",
					""type"": ""string"",
					""optional"": false,
					""meta"": [
						{
							""json"": ""USERNAME""
						},
						{
							""go.tag.db"": ""username""
						}
					]
				},
				{
					""name"": ""role"",
					""type"": ""Kind"",
					""optional"": false
				},
				{
					""name"": ""createdAt"",
					""type"": ""timestamp"",
					""optional"": true,
					""meta"": [
						{
							""json"": ""created_at,omitempty""
						},
						{
							""go.tag.db"": ""created_at""
						}
					]
				}
			]
		}
	],
	""services"": [
		{
			""name"": ""Example"",
			""methods"": [
				{
					""name"": ""Ping"",
					""inputs"": [],
					""outputs"": [
						{
							""name"": """",
							""type"": ""bool""
						}
					]
				},
				{
					""name"": ""GetUser"",
					""inputs"": [
						{
							""name"": ""req"",
							""type"": ""GetUserRequest""
						}
					],
					""outputs"": [
						{
							""name"": """",
							""type"": ""User""
						}
					]
				}
			]
		}
	]
}".

(** _examples/golang-basics/example.webrpc.json *)
Definition j_basics : string := "{
	""webrpc"": ""v1"",
	""name"": ""example"",
	""version"": ""v0.0.1"",
	""types"": [
		{
			""name"": ""Kind"",
			""kind"": ""enum"",
			""type"": ""uint32"",
			""fields"": [
				{
					""name"": ""USER"",
					""value"": ""0""
				},
				{
					""name"": ""ADMIN"",
					""value"": ""1""
				}
			]
		},
		{
			""name"": ""Empty"",
			""kind"": ""struct"",
			""fields"": []
		},
		{
			""name"": ""User"",
			""kind"": ""struct"",
			""fields"": [
				{
					""name"": ""ID"",
					""type"": ""uint64"",
					""optional"": false,
					""meta"": [
						{
							""json"": ""id""
						},
						{
							""go.tag.db"": ""id""
						}
					]
				},
				{
					""name"": ""username"",
					""type"": ""string"",
					""optional"": false,
					""meta"": [
						{
							""json"": ""USERNAME""
						},
						{
							""go.tag.db"": ""username""
						}
					]
				},
				{
					""name"": ""role"",
					""type"": ""string"",
					""optional"": false,
					""meta"": [
						{
							""go.tag.db"": ""-""
						}
					]
				},
				{
					""name"": ""createdAt"",
					""type"": ""timestamp"",
					""optional"": true,
					""meta"": [
						{
							""json"": ""created_at""
						},
						{
							""go.tag.json"": ""created_at,omitempty""
						},
						{
							""go.tag.db"": ""created_at""
						}
					]
				}
			]
		},
		{
			""name"": ""ComplexType"",
			""kind"": ""struct"",
			""fields"": [
				{
					""name"": ""meta"",
					""type"": ""map<string,any>""
				},
				{
					""name"": ""metaNestedExample"",
					""type"": ""map<string,map<string,uint32>>""
				},
				{
					""name"": ""namesList"",
					""type"": ""[]string""
				},
				{
					""name"": ""numsList"",
					""type"": ""[]int64""
				},
				{
					""name"": ""doubleArray"",
					""type"": ""[][]string""
				},
				{
					""name"": ""listOfMaps"",
					""type"": ""[]map<string,uint32>""
				},
				{
					""name"": ""listOfUsers"",
					""type"": ""[]User""
				},
				{
					""name"": ""mapOfUsers"",
					""type"": ""map<string,User>""
				},
				{
					""name"": ""user"",
					""type"": ""User""
				}
			]
		}
	],
	""services"": [
		{
			""name"": ""ExampleService"",
			""methods"": [
				{
					""name"": ""Ping"",
					""inputs"": [],
					""outputs"": []
				},
				{
					""name"": ""Status"",
					""inputs"": [],
					""outputs"": [
						{
							""name"": ""status"",
							""type"": ""bool""
						}
					]
				},
				{
					""name"": ""GetUser"",
					""inputs"": [
						{
							""name"": ""header"",
							""type"": ""map<string,string>""
						},
						{
							""name"": ""userID"",
							""type"": ""uint64""
						}
					],
					""outputs"": [
						{
							""name"": ""code"",
							""type"": ""uint32""
						},
						{
							""name"": ""user"",
							""type"": ""User""
						}
					]
				}
			]
		}
	]
}".

