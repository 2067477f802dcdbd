(** Written by tools/gotext.py.  The text of the gRPC stubs in /repo/testproto/grpc/grpc_vtproto.pb.go, from line
    96 to line 269, as committed in /repo, without comments. *)
From Coq Require Import String.
Open Scope string_scope.

Definition text_grpc : string :=
"const _ = grpc.SupportPackageIsVersion7

type TestServiceClient interface {
	TestRPC(ctx context.Context, in *inner.TestMessageRequest, opts ...grpc.CallOption) (*inner.TestMessageResponse, error)
}

type testServiceClient struct {
	cc grpc.ClientConnInterface
}

func NewTestServiceClient(cc grpc.ClientConnInterface) TestServiceClient {
	return &testServiceClient{cc}
}

func (c *testServiceClient) TestRPC(ctx context.Context, in *inner.TestMessageRequest, opts ...grpc.CallOption) (*inner.TestMessageResponse, error) {
	out := inner.TestMessageResponseFromVTPool()
	err := c.cc.Invoke(ctx, ""/TestService/TestRPC"", in, out, opts...)
	if err != nil {
		return nil, err
	}
	return out, nil
}

type TestServiceServer interface {
	TestRPC(context.Context, *inner.TestMessageRequest) (*inner.TestMessageResponse, error)
	mustEmbedUnimplementedTestServiceServer()
}

type UnimplementedTestServiceServer struct {
}

func (UnimplementedTestServiceServer) TestRPC(context.Context, *inner.TestMessageRequest) (*inner.TestMessageResponse, error) {
	return nil, status.Errorf(codes.Unimplemented, ""method TestRPC not implemented"")
}
func (UnimplementedTestServiceServer) mustEmbedUnimplementedTestServiceServer() {}

type UnsafeTestServiceServer interface {
	mustEmbedUnimplementedTestServiceServer()
}

func RegisterTestServiceServer(s grpc.ServiceRegistrar, srv TestServiceServer) {
	s.RegisterService(&TestService_ServiceDesc, srv)
}

func _TestService_TestRPC_Handler(srv interface{}, ctx context.Context, dec func(interface{}) error, interceptor grpc.UnaryServerInterceptor) (interface{}, error) {
	in := inner.TestMessageRequestFromVTPool()
	if err := dec(in); err != nil {
		return nil, err
	}
	if interceptor == nil {
		return srv.(TestServiceServer).TestRPC(ctx, in)
	}
	info := &grpc.UnaryServerInfo{
		Server:     srv,
		FullMethod: ""/TestService/TestRPC"",
	}
	handler := func(ctx context.Context, req interface{}) (interface{}, error) {
		return srv.(TestServiceServer).TestRPC(ctx, req.(*inner.TestMessageRequest))
	}
	return interceptor(ctx, in, info, handler)
}

var TestService_ServiceDesc = grpc.ServiceDesc{
	ServiceName: ""TestService"",
	HandlerType: (*TestServiceServer)(nil),
	Methods: []grpc.MethodDesc{
		{
			MethodName: ""TestRPC"",
			Handler:    _TestService_TestRPC_Handler,
		},
	},
	Streams:  []grpc.StreamDesc{},
	Metadata: ""testproto/grpc/grpc.proto"",
}

type TestServiceLocalClient interface {
	TestRPCLocal(ctx context.Context, in *LocalTestMessageRequest, opts ...grpc.CallOption) (*LocalTestMessageResponse, error)
}

type testServiceLocalClient struct {
	cc grpc.ClientConnInterface
}

func NewTestServiceLocalClient(cc grpc.ClientConnInterface) TestServiceLocalClient {
	return &testServiceLocalClient{cc}
}

func (c *testServiceLocalClient) TestRPCLocal(ctx context.Context, in *LocalTestMessageRequest, opts ...grpc.CallOption) (*LocalTestMessageResponse, error) {
	out := LocalTestMessageResponseFromVTPool()
	err := c.cc.Invoke(ctx, ""/TestServiceLocal/TestRPCLocal"", in, out, opts...)
	if err != nil {
		return nil, err
	}
	return out, nil
}

type TestServiceLocalServer interface {
	TestRPCLocal(context.Context, *LocalTestMessageRequest) (*LocalTestMessageResponse, error)
	mustEmbedUnimplementedTestServiceLocalServer()
}

type UnimplementedTestServiceLocalServer struct {
}

func (UnimplementedTestServiceLocalServer) TestRPCLocal(context.Context, *LocalTestMessageRequest) (*LocalTestMessageResponse, error) {
	return nil, status.Errorf(codes.Unimplemented, ""method TestRPCLocal not implemented"")
}
func (UnimplementedTestServiceLocalServer) mustEmbedUnimplementedTestServiceLocalServer() {}

type UnsafeTestServiceLocalServer interface {
	mustEmbedUnimplementedTestServiceLocalServer()
}

func RegisterTestServiceLocalServer(s grpc.ServiceRegistrar, srv TestServiceLocalServer) {
	s.RegisterService(&TestServiceLocal_ServiceDesc, srv)
}

func _TestServiceLocal_TestRPCLocal_Handler(srv interface{}, ctx context.Context, dec func(interface{}) error, interceptor grpc.UnaryServerInterceptor) (interface{}, error) {
	in := LocalTestMessageRequestFromVTPool()
	if err := dec(in); err != nil {
		return nil, err
	}
	if interceptor == nil {
		return srv.(TestServiceLocalServer).TestRPCLocal(ctx, in)
	}
	info := &grpc.UnaryServerInfo{
		Server:     srv,
		FullMethod: ""/TestServiceLocal/TestRPCLocal"",
	}
	handler := func(ctx context.Context, req interface{}) (interface{}, error) {
		return srv.(TestServiceLocalServer).TestRPCLocal(ctx, req.(*LocalTestMessageRequest))
	}
	return interceptor(ctx, in, info, handler)
}

var TestServiceLocal_ServiceDesc = grpc.ServiceDesc{
	ServiceName: ""TestServiceLocal"",
	HandlerType: (*TestServiceLocalServer)(nil),
	Methods: []grpc.MethodDesc{
		{
			MethodName: ""TestRPCLocal"",
			Handler:    _TestServiceLocal_TestRPCLocal_Handler,
		},
	},
	Streams:  []grpc.StreamDesc{},
	Metadata: ""testproto/grpc/grpc.proto"",
}


".
